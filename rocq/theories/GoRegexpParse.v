(** GoRegexpParse.v - syntax.Parse of Go 1.22 with the flags of regexp.Compile (syntax.Perl), for patterns of at most 1000 ASCII bytes
    (the limits of checkLimits are not reached then). Answers: the tree, an error of Parse, or [PNotModelled] for what has no tree here:
    flags and groups without a number, alternation, any character, non-greedy operators, open bounds, \p \P \A \b \B \C \Q \z, [[:name:]],
    octal and hexadecimal escapes. /repo uses none of these (bip32/path.go:22, 25, bip32/reg_ver_bytes.go:75). *)
From Verif Require Import Base GoStr GoRegexp.

(** what Parse answers; bip32/path.go:22 *)
Inductive pres (A : Type) := POk (a : A) | PError | PNotModelled.
Arguments POk {A} _. Arguments PError {A}. Arguments PNotModelled {A}.
(** sequencing; bip32/path.go:22 *)
Definition pbind {A C} (x : pres A) (f : A -> pres C) : pres C :=
  match x with POk a => f a | PError => PError | PNotModelled => PNotModelled end.
(** an entry of the parser's stack, the top first: a tree or the pseudo-operator opLeftParen; bip32/path.go:22 *)
Inductive item := SRe (re : regexp) | SLeftParen (cap : nat).

(** unicode.SimpleFold, exact on ASCII; bip32/path.go:22 *)
Definition FoldASCII (r : Z) : Z := if r =? 107 then 0x212a else if r =? 115 then 0x17f else SimpleFold r.
(** parser.maybeConcat: joins two literals on top of the stack; with a rune, the top is reused for it. bip32/path.go:22,
    bip32/reg_ver_bytes.go:75 *)
Definition maybeConcat (st : list item) (r : option (Z * bool)) : list item * bool :=
  match st with
  | SRe (OpLiteral f1 r1) :: SRe (OpLiteral f2 r2) :: st' =>
    if Bool.eqb f1 f2 then
      match r with
      | Some (c, f) => (SRe (OpLiteral f [c]) :: SRe (OpLiteral f2 (r2 ++ r1)) :: st', true)
      | None => (SRe (OpLiteral f2 (r2 ++ r1)) :: st', false)
      end
    else (st, false)
  | _ => (st, false)
  end.
(** parser.push, a class that is one rune or one rune in both cases; bip32/path.go:22 *)
Definition push_rune (c : Z) (fold : bool) (st : list item) : list item :=
  match maybeConcat st (Some (c, fold)) with
  | (st', true) => st'
  | (st', false) => SRe (OpLiteral fold [c]) :: st'
  end.
(** parser.push; bip32/path.go:22, 25, bip32/reg_ver_bytes.go:75 *)
Definition push (it : item) (st : list item) : list item :=
  let plain := it :: fst (maybeConcat st None) in
  match it with
  | SRe (OpCharClass [a; b]) =>
    if a =? b then push_rune a false st
    else if (a + 1 =? b) && (FoldASCII a =? b) && (FoldASCII b =? a) then push_rune a true st
    else plain
  | SRe (OpCharClass [a; b; c; d]) =>
    if (a =? b) && (c =? d) && (FoldASCII a =? c) && (FoldASCII c =? a) then push_rune a true st else plain
  | _ => plain
  end.

(** appendRange: the range is joined with the last or the last but one if they overlap or touch; bip32/path.go:22 *)
Definition join_range (lo hi rlo rhi : Z) : option (Z * Z) :=
  if (lo <=? rhi + 1) && (rlo <=? hi + 1) then Some (Z.min rlo lo, Z.max rhi hi) else None.
(** appendRange over the list of pairs, the last pair first; bip32/path.go:22 *)
Definition appendRange (c : list (Z * Z)) (lo hi : Z) : list (Z * Z) :=
  match c with
  | (l1, h1) :: c' =>
    match join_range lo hi l1 h1 with
    | Some p => p :: c'
    | None =>
      match c' with
      | (l2, h2) :: c'' =>
        match join_range lo hi l2 h2 with
        | Some p => (l1, h1) :: p :: c''
        | None => (lo, hi) :: c
        end
      | [] => (lo, hi) :: c
      end
    end
  | [] => [(lo, hi)]
  end.
(** perl_groups.go: \d, \s and \w; bip32/path.go:22, 25, bip32/reg_ver_bytes.go:75 *)
Definition perl_group (c : byte) : option (list (Z * Z)) :=
  match c with
  | x64 => Some [(48, 57)]
  | x73 => Some [(9, 10); (12, 13); (32, 32)]
  | x77 => Some [(48, 57); (65, 90); (95, 95); (97, 122)]
  | _ => None
  end.
(** appendNegatedClass; bip32/path.go:22 *)
Fixpoint negated (next : Z) (g : list (Z * Z)) : list (Z * Z) :=
  match g with
  | [] => if next <=? 0x10ffff then [(next, 0x10ffff)] else []
  | (lo, hi) :: g => (if next <=? lo - 1 then [(next, lo - 1)] else []) ++ negated (hi + 1) g
  end.
(** parsePerlClassEscape: the ranges of \d \s \w and their complements \D \S \W; bip32/path.go:22, 25, bip32/reg_ver_bytes.go:75 *)
Definition perl_escape (c : byte) : option (list (Z * Z)) :=
  match c with
  | x44 => match perl_group x64 with Some g => Some (negated 0 g) | None => None end
  | x53 => match perl_group x73 with Some g => Some (negated 0 g) | None => None end
  | x57 => match perl_group x77 with Some g => Some (negated 0 g) | None => None end
  | _ => perl_group c
  end.
(** appendClass; bip32/path.go:22 *)
Definition append_ranges (c : list (Z * Z)) (g : list (Z * Z)) : list (Z * Z) :=
  fold_left (fun c p => appendRange c (fst p) (snd p)) g c.
(** the order of cleanClass: low end upwards, then high end downwards; bip32/path.go:22 *)
Definition range_le (a b : Z * Z) : bool := (fst a <? fst b) || ((fst a =? fst b) && (snd b <=? snd a)).
(** sort.Sort of cleanClass; pairs that compare equal are equal; bip32/path.go:22 *)
Fixpoint range_insert (p : Z * Z) (l : list (Z * Z)) : list (Z * Z) :=
  match l with
  | [] => [p]
  | q :: l' => if range_le p q then p :: l else q :: range_insert p l'
  end.
(** the merging loop of cleanClass; bip32/path.go:22 *)
Fixpoint merge_ranges (lo hi : Z) (l : list (Z * Z)) : list (Z * Z) :=
  match l with
  | [] => [(lo, hi)]
  | (l1, h1) :: l => if l1 <=? hi + 1 then merge_ranges lo (if hi <? h1 then h1 else hi) l else (lo, hi) :: merge_ranges l1 h1 l
  end.
(** cleanClass; bip32/path.go:22 *)
Definition cleanClass (c : list (Z * Z)) : list (Z * Z) :=
  match fold_right range_insert [] c with
  | [] => []
  | (lo, hi) :: l => merge_ranges lo hi l
  end.
(** a class as the flat list of a syntax tree; bip32/path.go:22 *)
Definition flat (c : list (Z * Z)) : list Z := concat (map (fun p => [fst p; snd p]) c).

(** the first byte of the rest is [c]; bip32/path.go:22 *)
Definition at_byte (t : bytes) (c : byte) : bool := match t with d :: _ => Byte.eqb d c | [] => false end.
(** the rest starts with a backslash and one of the letters; bip32/path.go:22 *)
Definition at_escape (t : bytes) (letters : bytes) : bool :=
  match t with d :: e :: _ => Byte.eqb d x5c && existsb (Byte.eqb e) letters | _ => false end.
(** parser.parsePerlClassEscape: the ranges and the rest; bip32/path.go:22, 25, bip32/reg_ver_bytes.go:75 *)
Definition parsePerl (t : bytes) : option (list (Z * Z) * bytes) :=
  match t with
  | d :: e :: t => if Byte.eqb d x5c then match perl_escape e with Some g => Some (g, t) | None => None end else None
  | _ => None
  end.
(** parser.parseEscape without octal and hexadecimal numbers: the rune, the rest; bip32/path.go:22 *)
Definition parseEscape (t : bytes) : pres (Z * bytes) :=
  match t with
  | _ :: c :: t =>
    let v := Zb c in
    if 128 <=? v then PNotModelled
    else if (48 <=? v) && (v <=? 57) || (v =? 120) then PNotModelled
    else match c with
         | x61 => POk (7, t) | x66 => POk (12, t) | x6e => POk (10, t) | x72 => POk (13, t) | x74 => POk (9, t) | x76 => POk (11, t)
         | _ => if negb (IsWordChar v) || (v =? 95) then POk (v, t) else PError
         end
  | _ => PError
  end.
(** parser.parseClassChar; bip32/path.go:22 *)
Definition parseClassChar (t : bytes) : pres (Z * bytes) :=
  match t with
  | [] => PError
  | c :: t' => if Byte.eqb c x5c then parseEscape t else if 128 <=? Zb c then PNotModelled else POk (Zb c, t')
  end.
(** parser.parseClassRange: low and high end and the rest; bip32/path.go:22 *)
Definition parseClassRange (t : bytes) : pres (Z * Z * bytes) :=
  pbind (parseClassChar t) (fun r => let (lo, t) := r in
  if at_byte t x2d && (2 <=? length t)%nat && negb (at_byte (tl t) x5d) then
    pbind (parseClassChar (tl t)) (fun r => let (hi, t) := r in if hi <? lo then PError else POk (lo, hi, t))
  else POk (lo, lo, t)).
(** the loop of parser.parseClass; [c]: the ranges so far, the last first; bip32/path.go:22 *)
Fixpoint class_loop (fuel : nat) (t : bytes) (first : bool) (c : list (Z * Z)) : pres (list (Z * Z) * bytes) :=
  match fuel with
  | O => PError
  | S fuel =>
    if at_byte t x5d && negb first then POk (c, tl t)
    else if (2 <? length t)%nat && at_byte t x5b && at_byte (tl t) x3a then PNotModelled
    else if at_escape t [x70; x50] then PNotModelled
    else match parsePerl t with
         | Some (g, t) => class_loop fuel t false (append_ranges c g)
         | None => pbind (parseClassRange t) (fun r => let '(lo, hi, t) := r in class_loop fuel t false (appendRange c lo hi))
         end
  end.
(** parser.parseClass behind the opening bracket; bip32/path.go:22 *)
Definition parseClass (t : bytes) : pres (regexp * bytes) :=
  let neg := at_byte t x5e in
  let t := if neg then tl t else t in
  pbind (class_loop (S (length t)) t true []) (fun r => let (c, t) := r in
  let c := cleanClass (rev c) in
  let c := if neg then negated 0 c else c in
  match c with [] => PNotModelled | _ => POk (OpCharClass (flat c), t) end).

(** parser.concat and parser.alternate: the trees above the last parenthesis, the lowest first; bip32/path.go:22 *)
Fixpoint above (st : list item) (subs : list regexp) : list regexp * list item :=
  match st with
  | SRe re :: st => above st (re :: subs)
  | _ => (subs, st)
  end.
(** parser.collapse of a concatenation; bip32/path.go:22 *)
Definition collapse (subs : list regexp) : regexp :=
  match subs with
  | [] => OpEmptyMatch
  | re :: subs => fold_left OpConcat subs re
  end.
(** parser.concat; bip32/path.go:22 *)
Definition concat_top (st : list item) : list item :=
  let (subs, st) := above (fst (maybeConcat st None)) [] in push (SRe (collapse subs)) st.
(** parser.alternate without bars, with cleanAlt; bip32/path.go:22, 25 *)
Definition alternate_top (st : list item) : pres (list item) :=
  match st with
  | SRe (OpCharClass [lo; hi]) :: _ => if (lo =? 0) && (hi =? 0x10ffff) then PNotModelled else POk st
  | SRe (OpCharClass [a; b; c; d]) :: _ => if (a =? 0) && (b =? 9) && (c =? 11) && (d =? 0x10ffff) then PNotModelled else POk st
  | _ => POk st
  end.
(** parser.parseRightParen; bip32/path.go:22 *)
Definition parseRightParen (st : list item) : pres (list item) :=
  pbind (alternate_top (concat_top st)) (fun st =>
  match st with
  | SRe re :: SLeftParen cap :: st => POk (push (SRe (OpCapture cap re)) st)
  | _ => PError
  end).
(** parser.parseInt: value (-1 when it has too many digits) and rest; bip32/reg_ver_bytes.go:75 *)
Fixpoint digits_split (t : bytes) : bytes * bytes :=
  match t with
  | c :: t' => if (48 <=? Zb c) && (Zb c <=? 57) then let (d, r) := digits_split t' in (c :: d, r) else ([], t)
  | [] => ([], [])
  end.
(** parser.parseInt; bip32/reg_ver_bytes.go:75 *)
Definition parseInt (t : bytes) : option (Z * bytes) :=
  match digits_split t with
  | ([], _) => None
  | (c :: ds, r) =>
    if Byte.eqb c x30 && negb (match ds with [] => true | _ => false end) then None
    else Some (fold_left (fun n d => if (n <? 0) || (100000000 <=? n) then -1 else n * 10 + (Zb d - 48)) (c :: ds) 0, r)
  end.
(** parser.repeat on a brace: bounds (max -1: open) and rest; bip32/reg_ver_bytes.go:75 *)
Definition parseRepeat (t : bytes) : option (Z * Z * bytes) :=
  match parseInt (tl t) with
  | None => None
  | Some (min, s) =>
    let close min max s := if at_byte s x7d then Some (min, max, tl s) else None in
    if negb (at_byte s x2c) then close min min s
    else if at_byte (tl s) x7d then close min (-1) (tl s)
    else match parseInt (tl s) with
         | None => None
         | Some (max, s) => close (if max <? 0 then -1 else min) max s
         end
  end.
(** repeatIsValid; bip32/reg_ver_bytes.go:75 *)
Fixpoint repeatIsValid (re : regexp) (n : nat) : bool :=
  match re with
  | OpRepeat _ max a =>
    if (max =? 0)%nat then true else if (n <? max)%nat then false else repeatIsValid a (n / max)
  | OpCapture _ a | OpStar a | OpPlus a | OpQuest a => repeatIsValid a n
  | OpConcat a b => repeatIsValid a n && repeatIsValid b n
  | _ => true
  end.
(** parser.repeat on the stack; [last]: the previous operator was a repetition; bip32/path.go:22, bip32/reg_ver_bytes.go:75 *)
Definition repeat_top (mk : regexp -> regexp) (last : bool) (after : bytes) (st : list item) : pres (list item) :=
  if last then PError
  else if at_byte after x3f then PNotModelled
  else match st with
       | SRe re :: st =>
         if match mk re with
            | OpRepeat min max _ => ((2 <=? min)%nat || (2 <=? max)%nat) && negb (repeatIsValid (mk re) 1000)
            | _ => false
            end
         then PError else POk (SRe (mk re) :: st)
       | _ => PError
       end.
(** the loop of parse; [ncap]: number of the last group, [last] as above; bip32/path.go:22, 25, bip32/reg_ver_bytes.go:75 *)
Fixpoint parse_loop (fuel : nat) (t : bytes) (st : list item) (ncap : nat) (last : bool) : pres (list item) :=
  match fuel with
  | O => PError
  | S fuel =>
    let literal r t := parse_loop fuel t (push (SRe (OpLiteral false [r])) st) ncap false in
    let repeated mk after := pbind (repeat_top mk last after st) (fun st => parse_loop fuel after st ncap true) in
    match t with
    | [] => POk st
    | c :: t' =>
      if Byte.eqb c x28 then
        if at_byte t' x3f then PNotModelled else parse_loop fuel t' (push (SLeftParen (S ncap)) st) (S ncap) false
      else if Byte.eqb c x7c then PNotModelled
      else if Byte.eqb c x29 then pbind (parseRightParen st) (fun st => parse_loop fuel t' st ncap false)
      else if Byte.eqb c x5e then parse_loop fuel t' (push (SRe OpBeginText) st) ncap false
      else if Byte.eqb c x24 then parse_loop fuel t' (push (SRe OpEndText) st) ncap false
      else if Byte.eqb c x2e then PNotModelled
      else if Byte.eqb c x5b then
        pbind (parseClass t') (fun r => let (re, t) := r in parse_loop fuel t (push (SRe re) st) ncap false)
      else if Byte.eqb c x2a then repeated OpStar t'
      else if Byte.eqb c x2b then repeated OpPlus t'
      else if Byte.eqb c x3f then repeated OpQuest t'
      else if Byte.eqb c x7b then
        match parseRepeat t with
        | None => literal (Zb x7b) t'
        | Some (min, max, after) =>
          if (min <? 0) || (1000 <? min) || (1000 <? max) || ((0 <=? max) && (max <? min)) then PError
          else if max <? 0 then PNotModelled
          else repeated (OpRepeat (Z.to_nat min) (Z.to_nat max)) after
        end
      else if Byte.eqb c x5c then
        if at_escape t (B "AbBCQzpP") then PNotModelled
        else match parsePerl t with
             | Some (g, t) => parse_loop fuel t (push (SRe (OpCharClass (flat g))) st) ncap false
             | None => pbind (parseEscape t) (fun r => let (r, t) := r in literal r t)
             end
      else if 128 <=? Zb c then PNotModelled
      else literal (Zb c) t'
    end
  end.
(** syntax.Parse with the flags of regexp.Compile; bip32/path.go:22, 25, bip32/reg_ver_bytes.go:75 *)
Definition Parse (s : bytes) : pres regexp :=
  if (1000 <? length s)%nat then PNotModelled
  else pbind (parse_loop (S (length s)) s [] 0 false) (fun st =>
       pbind (alternate_top (concat_top st)) (fun st =>
       match st with
       | [SRe re] => POk re
       | _ => PError
       end)).
(** regexp.MustCompile from the text; bip32/path.go:22, 25, bip32/reg_ver_bytes.go:75 *)
Definition MustCompileText (s : bytes) : outcome Regexp :=
  match Parse s with POk re => MustCompile re | _ => Panic end.
