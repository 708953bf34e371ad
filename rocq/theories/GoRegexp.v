(** GoRegexp.v - packages regexp and regexp/syntax as the sources of Go 1.22 have them (go.mod:3): the compiler from a parsed
    pattern to a program, the three engines (backtracking, Pike's machine, one pass) and the choice between them. The packages
    are not in /repo; they are written down from their published source. Not written down: the parser (the patterns
    of bip32/path.go:22, 25 and bip32/reg_ver_bytes.go:75 appear below as it returns them), the operators that none of these patterns
    has (alternation, any character, non-greedy repetition, open bounds) with the instructions InstRuneAny, InstRuneAnyNotNL, and
    the recycling of threads and machines. A panic of the library, an index out of range or an exhausted [fuel] is a [Panic];
    C97 proves that there is none. *)
From Verif Require Import Base GoStr GoStrLit Bip32 GoCodec.

(** ** Syntax trees *)

(** syntax.Regexp: what Parse returns for the patterns of bip32/path.go:22, 25 and bip32/reg_ver_bytes.go:75. A list of
    concatenated parts is written as nested pairs, from the left. A class is a list of pairs of runes, low and high. *)
Inductive regexp :=
| OpEmptyMatch
| OpLiteral (fold : bool) (rs : list Z)
| OpCharClass (rs : list Z)
| OpBeginText
| OpEndText
| OpCapture (n : nat) (a : regexp)
| OpStar (a : regexp)
| OpPlus (a : regexp)
| OpQuest (a : regexp)
| OpRepeat (min max : nat) (a : regexp)
| OpConcat (a b : regexp).

(** the class \d, [0-9]; bip32/path.go:22, bip32/reg_ver_bytes.go:75 *)
Definition perl_d : regexp := OpCharClass [48; 57].
(** bip32/path.go:22, [^[mM](/\d+')*(/\d+)*$] as parsed: the class [mM] becomes the literal M with case folding. *)
Definition path_re : regexp :=
  OpConcat (OpConcat (OpConcat (OpConcat OpBeginText (OpLiteral true [77]))
    (OpStar (OpCapture 1 (OpConcat (OpConcat (OpLiteral false [47]) (OpPlus perl_d)) (OpLiteral false [39])))))
    (OpStar (OpCapture 2 (OpConcat (OpLiteral false [47]) (OpPlus perl_d))))) OpEndText.
(** bip32/path.go:25, [\s]: tab, line feed, form feed, carriage return, space. *)
Definition space_re : regexp := OpCharClass [9; 10; 12; 13; 32; 32].
(** bip32/reg_ver_bytes.go:75, [^m/\d{0,8}'/\d{0,8}'$] *)
Definition version_re : regexp :=
  OpConcat (OpConcat (OpConcat (OpConcat (OpConcat (OpConcat OpBeginText (OpLiteral false [109; 47])) (OpRepeat 0 8 perl_d))
    (OpLiteral false [39; 47])) (OpRepeat 0 8 perl_d)) (OpLiteral false [39])) OpEndText.

(** simplify1 of regexp/syntax for the pattern of bip32/reg_ver_bytes.go:75: x?, x* and x+ of an empty or already repeated x. *)
Definition simplify1_quest (sub : regexp) : regexp :=
  match sub with OpEmptyMatch => sub | OpQuest _ => sub | _ => OpQuest sub end.
(** as above, star; bip32/path.go:22 *)
Definition simplify1_star (sub : regexp) : regexp :=
  match sub with OpEmptyMatch => sub | OpStar _ => sub | _ => OpStar sub end.
(** as above, plus; bip32/path.go:22 *)
Definition simplify1_plus (sub : regexp) : regexp :=
  match sub with OpEmptyMatch => sub | OpPlus _ => sub | _ => OpPlus sub end.
(** Regexp.Simplify, x{n,m}: the suffix (x(x(x)?)?)? of k optional copies, k > 0; bip32/reg_ver_bytes.go:75 *)
Fixpoint suffix (k : nat) (sub : regexp) : regexp :=
  match k with
  | O => simplify1_quest sub
  | S k => simplify1_quest (OpConcat sub (suffix k sub))
  end.
(** Regexp.Simplify, x{n,m}: the copies in front; bip32/reg_ver_bytes.go:75 *)
Fixpoint copies (n : nat) (sub : regexp) : regexp :=
  match n with
  | O => sub
  | S n => OpConcat (copies n sub) sub
  end.
(** Regexp.Simplify; bip32/path.go:22, 25, bip32/reg_ver_bytes.go:75 *)
Fixpoint Simplify (re : regexp) : regexp :=
  match re with
  | OpCapture n a => OpCapture n (Simplify a)
  | OpConcat a b => OpConcat (Simplify a) (Simplify b)
  | OpStar a => simplify1_star (Simplify a)
  | OpPlus a => simplify1_plus (Simplify a)
  | OpQuest a => simplify1_quest (Simplify a)
  | OpRepeat min max a =>
    if (max =? 0)%nat then OpEmptyMatch
    else
      let sub := Simplify a in
      if (min =? 1)%nat && (max =? 1)%nat then sub
      else match min with
           | O => suffix (max - 1) sub
           | S n => if (min <? max)%nat then OpConcat (copies n sub) (suffix (max - min - 1) sub) else copies n sub
           end
  | _ => re
  end.

(** regexp.minInputLen, for literals without rune errors; bip32/path.go:22, 25, bip32/reg_ver_bytes.go:75 *)
Definition RuneLen (r : Z) : nat :=
  if r <? 128 then 1%nat else if r <? 2048 then 2%nat else if r =? 65533 then 1%nat else if r <? 65536 then 3%nat else 4%nat.
(** as above; bip32/path.go:22, 25, bip32/reg_ver_bytes.go:75 *)
Fixpoint minInputLen (re : regexp) : nat :=
  match re with
  | OpCharClass _ => 1
  | OpLiteral _ rs => fold_left (fun l r => l + RuneLen r)%nat rs O
  | OpCapture _ a | OpPlus a => minInputLen a
  | OpRepeat min _ a => min * minInputLen a
  | OpConcat a b => minInputLen a + minInputLen b
  | _ => O
  end.

(** ** Programs *)

(** syntax.InstOp; bip32/path.go:22, 25, bip32/reg_ver_bytes.go:75 *)
Inductive InstOp := InstAlt | InstAltMatch | InstCapture | InstEmptyWidth | InstMatch | InstFail | InstNop | InstRune | InstRune1.
(** syntax.Inst; bip32/path.go:22, 25, bip32/reg_ver_bytes.go:75 *)
Record Inst := mkInst { Op : InstOp; Out : nat; Arg : nat; Rune : list Z }.
(** InstAlt or InstAltMatch; bip32/path.go:22, 25, bip32/reg_ver_bytes.go:75 *)
Definition is_alt (o : InstOp) : bool := match o with InstAlt | InstAltMatch => true | _ => false end.
(** iop of regexp: InstRune1 counts as InstRune; bip32/reg_ver_bytes.go:75 *)
Definition is_rune (o : InstOp) : bool := match o with InstRune | InstRune1 => true | _ => false end.
(** the end of a program; bip32/path.go:22, 25, bip32/reg_ver_bytes.go:75 *)
Definition is_match (o : InstOp) : bool := match o with InstMatch => true | _ => false end.

(** syntax.EmptyOp: bit 0 begin of line, 1 end of line, 2 begin of text, 3 end of text, 4 word boundary, 5 none; bip32/path.go:22 *)
Definition EmptyBeginText : nat := 4.
(** as above; bip32/path.go:22 *)
Definition EmptyEndText : nat := 8.
(** syntax.IsWordChar; reached from bip32/path.go:22 *)
Definition IsWordChar (r : Z) : bool :=
  ((48 <=? r) && (r <=? 57)) || ((65 <=? r) && (r <=? 90)) || ((97 <=? r) && (r <=? 122)) || (r =? 95).

(** unicode.SimpleFold, exact on ASCII except for K, S, k and s; the one folded rune is the M of bip32/path.go:22 *)
Definition SimpleFold (r : Z) : Z :=
  if (65 <=? r) && (r <=? 90) then r + 32 else if (97 <=? r) && (r <=? 122) then r - 32 else r.

(** Inst.MatchRunePos: the linear search over pairs; [j] counts them. bip32/path.go:22, 25, bip32/reg_ver_bytes.go:75 *)
Fixpoint pairs_pos (rs : list Z) (r : Z) (j : nat) : option nat :=
  match rs with
  | lo :: hi :: rs => if r <? lo then None else if r <=? hi then Some j else pairs_pos rs r (S j)
  | _ => None
  end.
(** Inst.MatchRunePos: the binary search; bip32/path.go:22, 25, bip32/reg_ver_bytes.go:75 *)
Fixpoint binary_pos (fuel : nat) (rs : list Z) (r : Z) (lo hi : nat) : outcome (option nat) :=
  match fuel with
  | O => Panic
  | S fuel =>
    if (lo <? hi)%nat then
      let m := Nat.div2 (lo + hi) in
      let! c := get rs (2 * m) in
      if c <=? r then
        let! c1 := get rs (2 * m + 1) in
        if r <=? c1 then Ret (Some m) else binary_pos fuel rs r (m + 1) hi
      else binary_pos fuel rs r lo m
    else Ret None
  end.
(** Inst.MatchRunePos, the runes equal to r0 up to case; [arg] holds the flag FoldCase, 1. bip32/path.go:22 *)
Fixpoint folds (fuel : nat) (r0 r1 r : Z) : bool :=
  match fuel with
  | O => false
  | S fuel => if r1 =? r0 then false else if r =? r1 then true else folds fuel r0 (SimpleFold r1) r
  end.
(** Inst.MatchRunePos; bip32/path.go:22, 25, bip32/reg_ver_bytes.go:75 *)
Definition MatchRunePos (arg : nat) (rs : list Z) (r : Z) : outcome (option nat) :=
  match length rs with
  | 0%nat => Ret None
  | 1%nat =>
    let! r0 := get rs 0 in
    if r =? r0 then Ret (Some O)
    else if Nat.odd arg then Ret (if folds 4 r0 (SimpleFold r0) r then Some O else None) else Ret None
  | 2%nat =>
    let! lo := get rs 0 in let! hi := get rs 1 in
    Ret (if (lo <=? r) && (r <=? hi) then Some O else None)
  | 4%nat | 6%nat | 8%nat => Ret (pairs_pos rs r 0)
  | n => binary_pos (S n) rs r 0 (Nat.div2 n)
  end.
(** Inst.MatchRune; for InstRune1 the engines compare with the one rune. bip32/path.go:22, 25, bip32/reg_ver_bytes.go:75 *)
Definition MatchRune (i : Inst) (r : Z) : outcome bool :=
  match Op i with
  | InstRune1 => let! r0 := get (Rune i) 0 in Ret (r =? r0)
  | _ => let! o := MatchRunePos (Arg i) (Rune i) r in Ret (match o with Some _ => true | None => false end)
  end.

(** ** Compiler *)

(** syntax.frag: entry, patch list (head, tail) and nullable. A patch list runs through the unfilled Out and Arg fields of the
    instructions; entry n stands for the field Out (n even) or Arg (n odd) of instruction n/2. bip32/path.go:22, 25, bip32/reg_ver_bytes.go:75 *)
Record frag := mkFrag { f_i : nat; f_out : nat * nat; f_nullable : bool }.
(** a field of a program; bip32/path.go:22, 25, bip32/reg_ver_bytes.go:75 *)
Definition get_field (p : list Inst) (n : nat) : outcome nat :=
  let! i := get p (Nat.div2 n) in Ret (if Nat.odd n then Arg i else Out i).
(** as above; bip32/path.go:22, 25, bip32/reg_ver_bytes.go:75 *)
Definition put_field (p : list Inst) (n v : nat) : outcome (list Inst) :=
  let! i := get p (Nat.div2 n) in
  put p (Nat.div2 n) (if Nat.odd n then mkInst (Op i) (Out i) v (Rune i) else mkInst (Op i) v (Arg i) (Rune i)).
(** patchList.patch; bip32/path.go:22, 25, bip32/reg_ver_bytes.go:75 *)
Fixpoint patch (fuel : nat) (p : list Inst) (head v : nat) : outcome (list Inst) :=
  match fuel with
  | O => Panic
  | S fuel =>
    if (head =? 0)%nat then Ret p
    else let! next := get_field p head in let! p := put_field p head v in patch fuel p next v
  end.
(** patchList.append; bip32/reg_ver_bytes.go:75 *)
Definition append_list (p : list Inst) (l1 l2 : nat * nat) : outcome (list Inst * (nat * nat)) :=
  if (fst l1 =? 0)%nat then Ret (p, l2)
  else if (fst l2 =? 0)%nat then Ret (p, l1)
  else let! p := put_field p (snd l1) (fst l2) in Ret (p, (fst l1, snd l2)).
(** compiler.inst with makePatchList for the field Out; [a], [rs]: the fields the callers fill in.
    bip32/path.go:22, 25, bip32/reg_ver_bytes.go:75 *)
Definition c_inst (p : list Inst) (o : InstOp) (a : nat) (rs : list Z) (nullable : bool) : list Inst * frag :=
  (p ++ [mkInst o 0 a rs], mkFrag (length p) (2 * length p, 2 * length p)%nat nullable).
(** compiler.cat; bip32/path.go:22, 25, bip32/reg_ver_bytes.go:75 *)
Definition c_cat (p : list Inst) (f1 f2 : frag) : outcome (list Inst * frag) :=
  if (f_i f1 =? 0)%nat || (f_i f2 =? 0)%nat then Ret (p, mkFrag 0 (0, 0)%nat false)
  else let! p := patch (S (2 * length p)) p (fst (f_out f1)) (f_i f2) in
       Ret (p, mkFrag (f_i f1) (f_out f2) (f_nullable f1 && f_nullable f2)).
(** compiler.loop, greedy; bip32/path.go:22 *)
Definition c_loop (p : list Inst) (f1 : frag) : outcome (list Inst * frag) :=
  let n := length p in
  let p := p ++ [mkInst InstAlt (f_i f1) 0 []] in
  let! p := patch (S (2 * length p)) p (fst (f_out f1)) n in
  Ret (p, mkFrag n (2 * n + 1, 2 * n + 1)%nat true).
(** compiler.plus; bip32/path.go:22 *)
Definition c_plus (p : list Inst) (f1 : frag) : outcome (list Inst * frag) :=
  let! r := c_loop p f1 in let (p, f) := r in Ret (p, mkFrag (f_i f1) (f_out f) (f_nullable f1)).
(** compiler.quest, greedy; bip32/reg_ver_bytes.go:75 *)
Definition c_quest (p : list Inst) (f1 : frag) : outcome (list Inst * frag) :=
  let n := length p in
  let p := p ++ [mkInst InstAlt (f_i f1) 0 []] in
  let! r := append_list p (2 * n + 1, 2 * n + 1)%nat (f_out f1) in
  let (p, l) := r in Ret (p, mkFrag n l true).
(** compiler.star; bip32/path.go:22 *)
Definition c_star (p : list Inst) (f1 : frag) : outcome (list Inst * frag) :=
  if f_nullable f1 then let! r := c_plus p f1 in let (p, f) := r in c_quest p f else c_loop p f1.
(** compiler.rune; bip32/path.go:22, 25, bip32/reg_ver_bytes.go:75 *)
Definition c_rune (p : list Inst) (rs : list Z) (fold : bool) : list Inst * frag :=
  let flags := match rs with [r] => if fold && negb (SimpleFold r =? r) then 1%nat else 0%nat | _ => 0%nat end in
  let one := match rs with [_] => true | [lo; hi] => lo =? hi | _ => false end in
  c_inst p (if (flags =? 0)%nat && one then InstRune1 else InstRune) flags rs false.
(** compiler.compile, the runes of a literal after the first; bip32/path.go:22, 25, bip32/reg_ver_bytes.go:75 *)
Fixpoint c_literal (p : list Inst) (f : frag) (rs : list Z) (fold : bool) : outcome (list Inst * frag) :=
  match rs with
  | [] => Ret (p, f)
  | r :: rs =>
    let (p, f1) := c_rune p [r] fold in
    let! q := c_cat p f f1 in let (p, f) := q in c_literal p f rs fold
  end.
(** compiler.compile; bip32/path.go:22, 25, bip32/reg_ver_bytes.go:75. A counted repetition panics: Simplify removes them. *)
Fixpoint compile (p : list Inst) (re : regexp) : outcome (list Inst * frag) :=
  match re with
  | OpEmptyMatch => Ret (c_inst p InstNop 0 [] true)
  | OpLiteral _ [] => Ret (c_inst p InstNop 0 [] true)
  | OpLiteral fold (r :: rs) => let (p, f) := c_rune p [r] fold in c_literal p f rs fold
  | OpCharClass rs => Ret (c_rune p rs false)
  | OpBeginText => Ret (c_inst p InstEmptyWidth EmptyBeginText [] true)
  | OpEndText => Ret (c_inst p InstEmptyWidth EmptyEndText [] true)
  | OpCapture n a =>
    let (p, bra) := c_inst p InstCapture (2 * n) [] true in
    let! r := compile p a in let (p, sub) := r in
    let (p, ket) := c_inst p InstCapture (2 * n + 1) [] true in
    let! r := c_cat p bra sub in let (p, f) := r in c_cat p f ket
  | OpStar a => let! r := compile p a in let (p, f) := r in c_star p f
  | OpPlus a => let! r := compile p a in let (p, f) := r in c_plus p f
  | OpQuest a => let! r := compile p a in let (p, f) := r in c_quest p f
  | OpRepeat _ _ _ => Panic
  | OpConcat a b =>
    let! r := compile p a in let (p, f1) := r in
    let! r := compile p b in let (p, f2) := r in c_cat p f1 f2
  end.
(** syntax.Compile: the program and its Start; bip32/path.go:22, 25, bip32/reg_ver_bytes.go:75 *)
Definition Compile (re : regexp) : outcome (list Inst * nat) :=
  let! r := compile [mkInst InstFail 0 0 []] re in let (p, f) := r in
  let p := p ++ [mkInst InstMatch 0 0 []] in
  let! p := patch (S (2 * length p)) p (fst (f_out f)) (length p - 1) in
  Ret (p, f_i f).

(** Prog.StartCond; 255 is ^EmptyOp(0). bip32/path.go:22, 25, bip32/reg_ver_bytes.go:75 *)
Fixpoint StartCond (fuel : nat) (p : list Inst) (pc flag : nat) : outcome nat :=
  match fuel with
  | O => Panic
  | S fuel =>
    let! i := get p pc in
    match Op i with
    | InstEmptyWidth => StartCond fuel p (Out i) (Nat.lor flag (Arg i))
    | InstFail => Ret 255%nat
    | InstCapture | InstNop => StartCond fuel p (Out i) flag
    | _ => Ret flag
    end
  end.

(** ** Input *)

(** endOfText of regexp; bip32/path.go:22, 25, bip32/reg_ver_bytes.go:75 *)
Definition endOfText : Z := -1.
(** inputString.step: rune and width at a position; bip32/path.go:26, 45, bip32/reg_ver_bytes.go:76 *)
Definition step (s : bytes) (pos : nat) : Z * nat :=
  match skipn pos s with
  | [] => (endOfText, O)
  | c :: _ => if Zb c <? 128 then (Zb c, 1%nat) else decode_rune (skipn pos s)
  end.
(** regexp.lazyFlag: the runes before and behind a position (packed in one word by Go); bip32/path.go:45, bip32/reg_ver_bytes.go:76 *)
Definition lazyFlag : Type := Z * Z.
(** inputString.context; bip32/path.go:45, bip32/reg_ver_bytes.go:76 *)
Definition context (s : bytes) (pos : nat) : lazyFlag :=
  let r1 := match pos with
            | O => endOfText
            | S n => match nth_error s n with
                     | None => endOfText
                     | Some c => if Zb c <? 128 then Zb c else fst (decode_last_rune (firstn pos s))
                     end
            end in
  (r1, fst (step s pos)).
(** lazyFlag.match; bip32/path.go:45, bip32/reg_ver_bytes.go:76 *)
Definition flag_match (f : lazyFlag) (op : nat) : bool :=
  let (r1, r2) := f in
  let same := Bool.eqb (IsWordChar r1) (IsWordChar r2) in
  (negb (Nat.testbit op 0) || (r1 =? 10) || (r1 <? 0)) &&
  (negb (Nat.testbit op 2) || (r1 <? 0)) &&
  (negb (Nat.testbit op 1) || (r2 =? 10) || (r2 <? 0)) &&
  (negb (Nat.testbit op 3) || (r2 <? 0)) &&
  (negb (Nat.testbit op 4) || negb same) && (negb (Nat.testbit op 5) || same) && (op <? 64)%nat.

(** ** The backtracking engine, backtrack.go *)

(** bitState: the visited bits as one number, the positions of the groups. bip32/path.go:26, 45 *)
Record bitState := mkBits { visited : Z; b_cap : list Z; b_matchcap : list Z }.
(** regexp.job: instruction, arg, position. bip32/path.go:26, 45 *)
Definition job : Type := nat * bool * Z.
(** bitState.shouldVisit; [n], [e]: length of program and input; the bit vector is a slice of 32-bit words. bip32/path.go:26, 45 *)
Definition shouldVisit (n e : nat) (v : Z) (pc : nat) (pos : Z) : outcome (bool * Z) :=
  let k := Z.of_nat pc * (Z.of_nat e + 1) + pos in
  let size := (Z.of_nat n * (Z.of_nat e + 1) + 31) / 32 in
  if (k <? 0) || (size <=? k / 32) then Panic
  else if Z.testbit v k then Ret (false, v) else Ret (true, Z.setbit v k).
(** The labels of tryBacktrack: the head of the loop, CheckAndLoop, Skip. bip32/path.go:26, 45 *)
Inductive at_label := AtLoop | AtCheck (pc : nat) (pos : Z) (arg : bool) | AtSkip (pc : nat) (pos : Z) (arg : bool).
(** Regexp.tryBacktrack from a label on, first match wanted. bip32/path.go:26, 45 *)
Fixpoint tryBacktrack (fuel : nat) (p : list Inst) (s : bytes) (b : bitState) (jobs : list job) (l : at_label) : outcome (bool * bitState) :=
  match fuel with
  | O => Panic
  | S fuel =>
    match l with
    | AtLoop =>
      match jobs with
      | [] => Ret (false, b)
      | (pc, arg, pos) :: jobs => tryBacktrack fuel p s b jobs (AtSkip pc pos arg)
      end
    | AtCheck pc pos arg =>
      let! r := shouldVisit (length p) (length s) (visited b) pc pos in
      let (go, v) := r in
      if go then tryBacktrack fuel p s (mkBits v (b_cap b) (b_matchcap b)) jobs (AtSkip pc pos arg)
      else tryBacktrack fuel p s b jobs AtLoop
    | AtSkip pc pos arg =>
      let! i := get p pc in
      match Op i with
      | InstAltMatch | InstFail => Panic
      | InstAlt =>
        if arg then tryBacktrack fuel p s b jobs (AtCheck (Arg i) pos false)
        else tryBacktrack fuel p s b ((pc, true, pos) :: jobs) (AtCheck (Out i) pos arg)
      | InstRune | InstRune1 =>
        let (r, width) := step s (Z.to_nat pos) in
        let! m := MatchRune i r in
        if m then tryBacktrack fuel p s b jobs (AtCheck (Out i) (pos + Z.of_nat width) arg)
        else tryBacktrack fuel p s b jobs AtLoop
      | InstCapture =>
        if arg then
          let! c := put (b_cap b) (Arg i) pos in
          tryBacktrack fuel p s (mkBits (visited b) c (b_matchcap b)) jobs AtLoop
        else if (Arg i <? length (b_cap b))%nat then
          let! old := get (b_cap b) (Arg i) in
          let! c := put (b_cap b) (Arg i) pos in
          tryBacktrack fuel p s (mkBits (visited b) c (b_matchcap b)) ((pc, true, old) :: jobs) (AtCheck (Out i) pos arg)
        else tryBacktrack fuel p s b jobs (AtCheck (Out i) pos arg)
      | InstEmptyWidth =>
        if flag_match (context s (Z.to_nat pos)) (Arg i) then tryBacktrack fuel p s b jobs (AtCheck (Out i) pos arg)
        else tryBacktrack fuel p s b jobs AtLoop
      | InstNop => tryBacktrack fuel p s b jobs (AtCheck (Out i) pos arg)
      | InstMatch =>
        match b_cap b with
        | [] => Ret (true, b)
        | _ =>
          let! c := if (1 <? length (b_cap b))%nat then put (b_cap b) 1 pos else Ret (b_cap b) in
          let! old := get (b_matchcap b) 1 in
          Ret (true, mkBits (visited b) c (if old =? -1 then c else b_matchcap b))
        end
      end
    end
  end.
(** tryBacktrack with bitState.push of the first job. bip32/path.go:26, 45 *)
Definition try_at (p : list Inst) (s : bytes) (b : bitState) (pc : nat) (pos : nat) : outcome (bool * bitState) :=
  let fuel := (10 * (length p * S (length s)) + 20)%nat in
  let! i := get p pc in
  match Op i with
  | InstFail => tryBacktrack fuel p s b [] AtLoop
  | _ =>
    let! r := shouldVisit (length p) (length s) (visited b) pc (Z.of_nat pos) in
    let (go, v) := r in
    if go then tryBacktrack fuel p s (mkBits v (b_cap b) (b_matchcap b)) [(pc, false, Z.of_nat pos)] AtLoop
    else tryBacktrack fuel p s b [] AtLoop
  end.
(** [b.cap[0] = pos] when there are groups. bip32/path.go:26, 45 *)
Definition set_start (c : list Z) (pos : nat) : list Z := match c with [] => [] | _ :: c => Z.of_nat pos :: c end.
(** Regexp.backtrack, the unanchored loop; the patterns that reach it have no literal prefix. bip32/path.go:26 *)
Fixpoint backtrack_from (fuel : nat) (p : list Inst) (start : nat) (s : bytes) (b : bitState) (pos : nat) : outcome (option (list Z)) :=
  match fuel with
  | O => Panic
  | S fuel =>
    if (pos <=? length s)%nat then
      let! r := try_at p s (mkBits (visited b) (set_start (b_cap b) pos) (b_matchcap b)) start pos in
      let (ok, b) := r in
      if ok then Ret (Some (b_matchcap b))
      else
        let width := snd (step s pos) in
        if (width =? 0)%nat then Ret None else backtrack_from fuel p start s b (pos + width)
    else Ret None
  end.
(** Regexp.backtrack; [None] is nil. bip32/path.go:26, 45 *)
Definition backtrack (p : list Inst) (start cond : nat) (s : bytes) (pos ncap : nat) : outcome (option (list Z)) :=
  if (cond =? 255)%nat then Ret None
  else if Nat.testbit cond 2 && negb (pos =? 0)%nat then Ret None
  else
    let b := mkBits 0 (repeat (-1) ncap) (repeat (-1) ncap) in
    if Nat.testbit cond 2 then
      let! r := try_at p s (mkBits 0 (set_start (b_cap b) pos) (b_matchcap b)) start pos in
      let (ok, b) := r in Ret (if ok then Some (b_matchcap b) else None)
    else backtrack_from (length s + 2) p start s b pos.

(** ** Pike's machine, exec.go *)

(** regexp.queue: the dense array, entries with the thread's captures or nil. The sparse array only answers whether an
    instruction is in the dense one. bip32/path.go:26, 45 *)
Definition queue : Type := list (nat * option (list Z)).
(** as above; bip32/path.go:26, 45 *)
Definition queued (q : queue) (pc : nat) : bool := existsb (fun d => (fst d =? pc)%nat) q.
(** machine.add; bip32/path.go:26, 45 *)
Fixpoint add (fuel : nat) (p : list Inst) (q : queue) (pc : nat) (pos : nat) (c : list Z) (cond : lazyFlag) : outcome queue :=
  match fuel with
  | O => Panic
  | S fuel =>
    if (pc =? 0)%nat then Ret q
    else if queued q pc then Ret q
    else
      let! i := get p pc in
      match Op i with
      | InstAltMatch => Panic
      | InstFail => Ret (q ++ [(pc, None)])
      | InstAlt =>
        let! q := add fuel p (q ++ [(pc, None)]) (Out i) pos c cond in
        add fuel p q (Arg i) pos c cond
      | InstEmptyWidth =>
        if flag_match cond (Arg i) then add fuel p (q ++ [(pc, None)]) (Out i) pos c cond else Ret (q ++ [(pc, None)])
      | InstNop => add fuel p (q ++ [(pc, None)]) (Out i) pos c cond
      | InstCapture =>
        if (Arg i <? length c)%nat then
          let! c := put c (Arg i) (Z.of_nat pos) in add fuel p (q ++ [(pc, None)]) (Out i) pos c cond
        else add fuel p (q ++ [(pc, None)]) (Out i) pos c cond
      | InstMatch | InstRune | InstRune1 => Ret (q ++ [(pc, Some c)])
      end
  end.
(** machine.step, first match wanted: the threads of the running queue in order; a match cuts off the rest.
    Result: next queue, matched, captures. bip32/path.go:26, 45 *)
Fixpoint m_step (p : list Inst) (run next : queue) (pos nextPos : nat) (r : Z) (cond : lazyFlag) (matched : bool) (mc : list Z) :
    outcome (queue * bool * list Z) :=
  match run with
  | [] => Ret (next, matched, mc)
  | (_, None) :: run => m_step p run next pos nextPos r cond matched mc
  | (pc, Some c) :: run =>
    let! i := get p pc in
    match Op i with
    | InstMatch =>
      let! mc := match c with [] => Ret mc | _ => put c 1 (Z.of_nat pos) end in
      Ret (next, true, mc)
    | InstRune | InstRune1 =>
      let! ok := MatchRune i r in
      if ok then
        let! next := add (S (length p)) p next (Out i) nextPos c cond in
        m_step p run next pos nextPos r cond matched mc
      else m_step p run next pos nextPos r cond matched mc
    | _ => Panic
    end
  end.
(** machine.match, the loop; [r], [width]: the rune at pos, [r1], [width1]: the next one. Patterns without literal prefix.
    bip32/path.go:26, 45 *)
Fixpoint m_loop (fuel : nat) (p : list Inst) (start cond : nat) (s : bytes) (run : queue) (pos : nat) (r : Z) (width : nat) (r1 : Z) (width1 : nat)
    (flag : lazyFlag) (matched : bool) (mc : list Z) : outcome (bool * list Z) :=
  match fuel with
  | O => Panic
  | S fuel =>
    if match run with [] => (Nat.testbit cond 2 && negb (pos =? 0)%nat) || matched | _ => false end then Ret (matched, mc)
    else
      let mc := if matched then mc else set_start mc pos in
      let! run := if matched then Ret run else add (S (length p)) p run start pos mc flag in
      let flag := (r, r1) in
      let! q := m_step p run [] pos (pos + width) r flag matched mc in
      let '(next, matched, mc) := q in
      if (width =? 0)%nat then Ret (matched, mc)
      else if match mc with [] => matched | _ => false end then Ret (matched, mc)
      else
        let pos := (pos + width)%nat in
        let '(r2, width2) := if r1 =? endOfText then (r1, width1) else step s (pos + width1) in
        m_loop fuel p start cond s next pos r1 width1 r2 width2 flag matched mc
  end.
(** machine.match and the result of doExecute; bip32/path.go:26, 45 *)
Definition machine (p : list Inst) (start cond : nat) (s : bytes) (pos ncap : nat) : outcome (option (list Z)) :=
  if (cond =? 255)%nat then Ret None
  else
    let (r, width) := step s pos in
    let (r1, width1) := if r =? endOfText then (endOfText, O) else step s (pos + width) in
    let flag := match pos with O => (-1, r) | _ => context s pos end in
    let! q := m_loop (length s + 2) p start cond s [] pos r width r1 width1 flag false (repeat (-1) ncap) in
    let (matched, mc) := q in Ret (if matched : bool then Some mc else None).

(** ** The one-pass engine, onepass.go *)

(** onePassInst: an instruction with its dispatch table; bip32/reg_ver_bytes.go:75 *)
Record oInst := mkO { o_inst : Inst; o_next : list nat }.
(** onePassCopy: the field Out ([false]) or Arg ([true]) of an instruction; bip32/path.go:22, bip32/reg_ver_bytes.go:75 *)
Definition leg (i : Inst) (b : bool) : nat := if b then Arg i else Out i.
(** as above, assignment; bip32/path.go:22, bip32/reg_ver_bytes.go:75 *)
Definition set_leg (i : Inst) (b : bool) (v : nat) : Inst := if b then mkInst (Op i) (Out i) v (Rune i) else mkInst (Op i) v (Arg i) (Rune i).
(** onePassCopy, one round of its loop; bip32/path.go:22, bip32/reg_ver_bytes.go:75 *)
Definition copy_round (p : list Inst) (pc : nat) : outcome (list Inst) :=
  let! a := get p pc in
  if negb (is_alt (Op a)) then Ret p
  else
    let! ia := get p (Arg a) in
    let! io := get p (Out a) in
    let alt := is_alt (Op ia) in (* which leg of A leads to another Alt: Arg is looked at first *)
    if negb alt && negb (is_alt (Op io)) then Ret p
    else
      let b_pc := leg a alt in
      let other := leg a (negb alt) in
      let b := if alt then ia else io in
      let! instOther := get p other in
      if is_alt (Op instOther) then Ret p
      else
        let bAlt := negb (Out b =? pc)%nat && (Arg b =? pc)%nat in
        let patched := (Out b =? pc)%nat || (Arg b =? pc)%nat in
        let b' := if patched then set_leg b bAlt other else b in
        let! p := put p b_pc b' in
        let! a := get p pc in
        if (leg a (negb alt) =? leg b' bAlt)%nat then put p pc (set_leg a alt (leg b' (negb bAlt))) else Ret p.
(** onePassCopy; bip32/path.go:22, bip32/reg_ver_bytes.go:75 *)
Fixpoint onePassCopy (n pc : nat) (p : list Inst) : outcome (list Inst) :=
  match n with
  | O => Ret p
  | S n => let! p := copy_round p pc in onePassCopy n (S pc) p
  end.
(** mergeRuneSets; [None] is mergeFailed. [acc], [next]: the merged runes and targets so far, in reverse order.
    bip32/path.go:22, bip32/reg_ver_bytes.go:75 *)
Fixpoint mergeRuneSets (fuel : nat) (left right : list Z) (lpc rpc : nat) (acc : list Z) (next : list nat) : outcome (option (list Z * list nat)) :=
  match fuel with
  | O => Panic
  | S fuel =>
    let extend lo hi l r pc :=
      match acc with
      | m :: _ => if lo <=? m then Ret None else mergeRuneSets fuel l r lpc rpc (hi :: lo :: acc) (pc :: next)
      | [] => mergeRuneSets fuel l r lpc rpc [hi; lo] [pc]
      end in
    match left, right with
    | [], [] => Ret (Some (rev acc, rev next))
    | lo :: hi :: l, [] => extend lo hi l [] lpc
    | [], lo :: hi :: r => extend lo hi [] r rpc
    | lo :: hi :: l, lo' :: hi' :: r => if lo' <? lo then extend lo' hi' left r rpc else extend lo hi l right lpc
    | _, _ => Panic
    end
  end.
(** The state of makeOnePass: program, onePassRunes, m, the instructions seen by visitQueue, and all ever put into instQueue
    with those still to do. bip32/path.go:22, bip32/reg_ver_bytes.go:75 *)
Record opState := mkOp { op_prog : list oInst; op_runes : list (list Z); op_m : list bool; op_visit : list nat; op_queue : list nat; op_todo : list nat }.
(** queue.insert on instQueue; bip32/path.go:22, bip32/reg_ver_bytes.go:75 *)
Definition op_insert (st : opState) (pc : nat) : opState :=
  if existsb (Nat.eqb pc) (op_queue st) then st
  else mkOp (op_prog st) (op_runes st) (op_m st) (op_visit st) (op_queue st ++ [pc]) (op_todo st ++ [pc]).
(** writes to m, onePassRunes and the program; bip32/path.go:22, bip32/reg_ver_bytes.go:75 *)
Definition op_write (st : opState) (pc : nat) (i : oInst) (rs : list Z) (m : bool) : outcome opState :=
  let! pr := put (op_prog st) pc i in
  let! rn := put (op_runes st) pc rs in
  let! ms := put (op_m st) pc m in
  Ret (mkOp pr rn ms (op_visit st) (op_queue st) (op_todo st)).
(** makeOnePass, the runes of an instruction with case folding: sorted pairs, for two runes; bip32/path.go:22 *)
Definition fold_pairs (r0 : Z) : list Z :=
  let r1 := SimpleFold r0 in if r1 =? r0 then [r0; r0] else if r0 <? r1 then [r0; r0; r1; r1] else [r1; r1; r0; r0].
(** makeOnePass, check; bip32/path.go:22, bip32/reg_ver_bytes.go:75 *)
Fixpoint check (fuel : nat) (st : opState) (pc : nat) : outcome (bool * opState) :=
  match fuel with
  | O => Panic
  | S fuel =>
    let! oi := get (op_prog st) pc in
    let inst := o_inst oi in
    if existsb (Nat.eqb pc) (op_visit st) then Ret (true, st)
    else
      let st := mkOp (op_prog st) (op_runes st) (op_m st) (op_visit st ++ [pc]) (op_queue st) (op_todo st) in
      let same_next rs := repeat (Out inst) (Nat.div2 (length rs) + 1) in
      match Op inst with
      | InstAlt | InstAltMatch =>
        let! q := check fuel st (Out inst) in
        let (ok1, st) := q in
        let! q := if ok1 : bool then check fuel st (Arg inst) else Ret (false, st) in
        let (ok, st) := q in
        let! matchOut := get (op_m st) (Out inst) in
        let! matchArg := get (op_m st) (Arg inst) in
        if matchOut && matchArg then Ret (false, st)
        else
          let inst := if matchArg then mkInst (Op inst) (Arg inst) (Out inst) (Rune inst) else inst in
          let matchOut := matchOut || matchArg in
          let inst := if matchOut then mkInst InstAltMatch (Out inst) (Arg inst) (Rune inst) else inst in
          let! m0 := get (op_m st) pc in
          let! l := get (op_runes st) (Out inst) in
          let! r := get (op_runes st) (Arg inst) in
          let! mr := mergeRuneSets (S (length l + length r)) l r (Out inst) (Arg inst) [] [] in
          match mr with
          | None => let! st := op_write st pc (mkO inst []) [] (matchOut || m0) in Ret (false, st)
          | Some (rs, next) => let! st := op_write st pc (mkO inst next) rs (matchOut || m0) in Ret (ok, st)
          end
      | InstCapture | InstNop | InstEmptyWidth =>
        let! q := check fuel st (Out inst) in
        let (ok, st) := q in
        let! m := get (op_m st) (Out inst) in
        let! rs := get (op_runes st) (Out inst) in
        let! st := op_write st pc (mkO inst (same_next rs)) rs m in Ret (ok, st)
      | InstMatch | InstFail =>
        let! rs := get (op_runes st) pc in
        let! st := op_write st pc oi rs (is_match (Op inst)) in Ret (true, st)
      | InstRune | InstRune1 =>
        let! rs0 := get (op_runes st) pc in
        match o_next oi with
        | _ :: _ => let! st := op_write st pc oi rs0 false in Ret (true, st)
        | [] =>
          let st := op_insert st (Out inst) in
          let rs := match Op inst, Rune inst with
                    | InstRune1, r :: _ => [r; r]
                    | _, [r] => if Nat.odd (Arg inst) then fold_pairs r else [r]
                    | _, rs => rs
                    end in
          let! st := op_write st pc (mkO (mkInst InstRune (Out inst) (Arg inst) (Rune inst)) (same_next rs)) rs false in
          Ret (true, st)
        end
      end
  end.
(** makeOnePass, the loop over instQueue; [None]: not one-pass. bip32/path.go:22, bip32/reg_ver_bytes.go:75 *)
Fixpoint make_loop (fuel : nat) (n : nat) (st : opState) : outcome (option opState) :=
  match fuel with
  | O => Panic
  | S fuel =>
    match op_todo st with
    | [] => Ret (Some st)
    | pc :: todo =>
      let! q := check (S n) (mkOp (op_prog st) (op_runes st) (op_m st) [] (op_queue st) todo) pc in
      let (ok, st) := q in if ok : bool then make_loop fuel n st else Ret None
    end
  end.
(** makeOnePass, cleanupOnePass: the runes become those collected, except that the shortcuts of the original are restored.
    bip32/reg_ver_bytes.go:75 *)
Fixpoint cleanup (orig : list Inst) (pr : list oInst) (runes : list (list Z)) : list oInst :=
  match orig, pr, runes with
  | i0 :: orig, oi :: pr, rs :: runes =>
    let i := mkInst (Op (o_inst oi)) (Out (o_inst oi)) (Arg (o_inst oi)) rs in
    (match Op i0 with
     | InstAlt | InstAltMatch | InstRune => mkO i (o_next oi)
     | InstRune1 => mkO i0 []
     | _ => mkO i []
     end) :: cleanup orig pr runes
  | _, _, _ => []
  end.
(** compileOnePass, what an instruction may lead to; bip32/path.go:22, bip32/reg_ver_bytes.go:75 *)
Fixpoint leads_ok (p : list Inst) (hasAlt : bool) (l : list Inst) : outcome bool :=
  match l with
  | [] => Ret true
  | i :: l =>
    let! o := get p (Out i) in
    let! ok := match Op i with
               | InstAlt | InstAltMatch => let! a := get p (Arg i) in Ret (negb (is_match (Op o) || is_match (Op a)))
               | InstEmptyWidth => Ret (negb (is_match (Op o)) || Nat.testbit (Arg i) 3)
               | _ => Ret (negb (is_match (Op o) && hasAlt))
               end in
    if ok : bool then leads_ok p hasAlt l else Ret false
  end.
(** compileOnePass; bip32/path.go:22, 25, bip32/reg_ver_bytes.go:75 *)
Definition compileOnePass (p : list Inst) (start : nat) : outcome (option (list oInst)) :=
  if (start =? 0)%nat then Ret None
  else
    let! i := get p start in
    if negb (match Op i with InstEmptyWidth => Nat.testbit (Arg i) 2 | _ => false end) then Ret None
    else
      let! ok := leads_ok p (existsb (fun i => is_alt (Op i)) p) p in
      if negb ok then Ret None
      else
        let! c := onePassCopy (length p) 0 p in
        if (1000 <=? length c)%nat then Ret None
        else
          let n := length c in
          let! r := make_loop (S n) n (mkOp (map (fun i => mkO i []) c) (repeat [] n) (repeat false n) [] [start] [start]) in
          match r with
          | None => Ret None
          | Some st => Ret (Some (cleanup p (op_prog st) (op_runes st)))
          end.
(** onePassPrefix, the runes of the literal prefix and where they end; bip32/reg_ver_bytes.go:75 *)
Fixpoint prefix_runes (fuel : nat) (p : list Inst) (pc : nat) : outcome (list Z * nat) :=
  match fuel with
  | O => Panic
  | S fuel =>
    let! i := get p pc in
    match is_rune (Op i), Rune i with
    | true, [r] =>
      if Nat.odd (Arg i) || (r =? 65533) then Ret ([], pc)
      else let! q := prefix_runes fuel p (Out i) in let (rs, e) := q in Ret (r :: rs, e)
    | _, _ => Ret ([], pc)
    end
  end.
(** onePassPrefix, skipping InstNop; bip32/reg_ver_bytes.go:75 *)
Fixpoint skip_nops (fuel : nat) (p : list Inst) (pc : nat) : outcome nat :=
  match fuel with
  | O => Panic
  | S fuel => let! i := get p pc in match Op i with InstNop => skip_nops fuel p (Out i) | _ => Ret pc end
  end.
(** onePassPrefix for a program that starts with begin of text; literal prefixes of ASCII runes, as bytes. bip32/reg_ver_bytes.go:75 *)
Definition onePassPrefix (p : list Inst) (start : nat) : outcome (bytes * nat) :=
  let! i := get p start in
  let! pc := skip_nops (S (length p)) p (Out i) in
  let! q := prefix_runes (S (length p)) p pc in
  let (rs, e) := q in
  match rs with [] => Ret ([], start) | _ => Ret (map bZ rs, e) end.
(** onePassNext; bip32/reg_ver_bytes.go:75 *)
Definition onePassNext (oi : oInst) (r : Z) : outcome nat :=
  let! o := MatchRunePos (Arg (o_inst oi)) (Rune (o_inst oi)) r in
  match o with
  | Some k => get (o_next oi) k
  | None => Ret (match Op (o_inst oi) with InstAltMatch => Out (o_inst oi) | _ => O end)
  end.
(** Regexp.doOnePass, the loop, for MatchString (no captures); bip32/reg_ver_bytes.go:76 *)
Fixpoint onepass_loop (fuel : nat) (p : list oInst) (s : bytes) (pc pos : nat) (r : Z) (width : nat) (r1 : Z) (width1 : nat) (flag : lazyFlag) : outcome bool :=
  match fuel with
  | O => Panic
  | S fuel =>
    let! oi := get p pc in
    let inst := o_inst oi in
    let advance :=
      if (width =? 0)%nat then Ret false
      else
        let pos := (pos + width)%nat in
        let '(r2, width2) := if r1 =? endOfText then (r1, width1) else step s (pos + width1) in
        onepass_loop fuel p s (Out inst) pos r1 width1 r2 width2 (r, r1) in
    match Op inst with
    | InstMatch => Ret true
    | InstRune | InstRune1 => let! ok := MatchRune inst r in if ok then advance else Ret false
    | InstAlt | InstAltMatch => let! pc := onePassNext oi r in onepass_loop fuel p s pc pos r width r1 width1 flag
    | InstFail => Ret false
    | InstNop | InstCapture => onepass_loop fuel p s (Out inst) pos r width r1 width1 flag
    | InstEmptyWidth => if flag_match flag (Arg inst) then onepass_loop fuel p s (Out inst) pos r width r1 width1 flag else Ret false
    end
  end.
(** Regexp.doOnePass for MatchString: position 0, no captures; bip32/reg_ver_bytes.go:76 *)
Definition doOnePass (p : list oInst) (start cond : nat) (prefix : bytes) (prefixEnd : nat) (s : bytes) : outcome bool :=
  let fuel := (S (length s) * S (length p) + 1)%nat in
  if (cond =? 255)%nat then Ret false
  else
    let (r, width) := step s 0 in
    let (r1, width1) := if r =? endOfText then (endOfText, O) else step s width in
    let flag := (-1, r) in
    let! oi := get p start in
    match prefix with
    | [] => onepass_loop fuel p s start 0 r width r1 width1 flag
    | _ =>
      if flag_match flag (Arg (o_inst oi)) then
        if bytes_eqb (firstn (length prefix) s) prefix then
          let pos := length prefix in
          let (r, width) := step s pos in
          let (r1, width1) := step s (pos + width) in
          onepass_loop fuel p s prefixEnd pos r width r1 width1 (context s pos)
        else Ret false
      else onepass_loop fuel p s start 0 r width r1 width1 flag
    end.

(** ** Regexp *)

(** regexp.Regexp, the fields that matter; bip32/path.go:22, 25, bip32/reg_ver_bytes.go:75 *)
Record Regexp := mkRe { re_prog : list Inst; re_start : nat; re_cond : nat; re_min : nat; re_onepass : option (list oInst);
                        re_prefix : bytes; re_prefixEnd : nat }.
(** regexp.MustCompile behind the parser. bip32/path.go:22, 25, bip32/reg_ver_bytes.go:75. Prog.Prefix is empty unless
    the program starts with a literal rune; such patterns are refused here ([Panic]), /repo has none. *)
Definition MustCompile (parsed : regexp) : outcome Regexp :=
  let re := Simplify parsed in
  let! q := Compile re in let (p, start) := q in
  let! cond := StartCond (S (length p)) p start 0 in
  let! o := compileOnePass p start in
  match o with
  | None =>
    let! i := get p start in
    match is_rune (Op i), Rune i, Op i with
    | true, [_], _ => Panic
    | _, _, (InstNop | InstCapture) => Panic
    | _, _, _ => Ret (mkRe p start cond (minInputLen re) None [] 0)
    end
  | Some op =>
    let! q := onePassPrefix p start in let (prefix, e) := q in
    Ret (mkRe p start cond (minInputLen re) (Some op) prefix e)
  end.
(** maxBitStateLen; bip32/path.go:26, 45 *)
Definition maxBitStateLen (p : list Inst) : Z :=
  if (length p <=? 500)%nat then 256 * 1024 / Z.of_nat (length p) else 0.
(** Regexp.doExecute on a string without one-pass program; [None] is nil. bip32/path.go:26, 45 *)
Definition doExecute (re : Regexp) (s : bytes) (pos ncap : nat) : outcome (option (list Z)) :=
  if (length s <? re_min re)%nat then Ret None
  else if Z.of_nat (length s) <? maxBitStateLen (re_prog re)
       then backtrack (re_prog re) (re_start re) (re_cond re) s pos ncap
       else machine (re_prog re) (re_start re) (re_cond re) s pos ncap.
(** Regexp.MatchString; bip32/path.go:46, bip32/reg_ver_bytes.go:76 *)
Definition MatchString (re : Regexp) (s : bytes) : outcome bool :=
  match re_onepass re with
  | Some op => if (length s <? re_min re)%nat then Ret false else doOnePass op (re_start re) (re_cond re) (re_prefix re) (re_prefixEnd re) s
  | None => let! r := doExecute re s 0 0 in Ret (match r with Some _ => true | None => false end)
  end.
(** Regexp.replaceAll with a replacement without $, two positions per match; [last]: lastMatchEnd. bip32/path.go:26 *)
Fixpoint replace_from (fuel : nat) (re : Regexp) (s repl : bytes) (searchPos last : nat) : outcome bytes :=
  match fuel with
  | O => Panic
  | S fuel =>
    let rest := Ret (skipn last s) in
    if (searchPos <=? length s)%nat then
      let! r := doExecute re s searchPos 2 in
      match r with
      | None => rest
      | Some a =>
        let! a0 := get a 0 in
        let! a1 := get a 1 in
        let a0 := Z.to_nat a0 in let a1 := Z.to_nat a1 in
        if (a0 <? last)%nat || (length s <? a1)%nat then Panic
        else
          let buf := firstn (a0 - last) (skipn last s) ++ (if (last <? a1)%nat || (a0 =? 0)%nat then repl else []) in
          let width := snd (decode_rune (skipn searchPos s)) in
          let next := if (a1 <? searchPos + width)%nat then (searchPos + width)%nat
                      else if (a1 <? searchPos + 1)%nat then (searchPos + 1)%nat else a1 in
          let! rest := replace_from fuel re s repl next a1 in
          Ret (buf ++ rest)
      end
    else rest
  end.
(** Regexp.ReplaceAllString with a replacement without $; bip32/path.go:26 *)
Definition ReplaceAllString (re : Regexp) (s repl : bytes) : outcome bytes := replace_from (length s + 2) re s repl 0 0.

(** ** The calls of /repo *)

(** bip32/path.go:24-27 Path.String, with the library's regular expressions *)
Definition GoPathString (p : bytes) : outcome bytes := let! re := MustCompile space_re in ReplaceAllString re p [].
(** bip32/path.go:46: PathRegex.MatchString *)
Definition GoPathMatch (s : bytes) : outcome bool := let! re := MustCompile path_re in MatchString re s.
(** bip32/reg_ver_bytes.go:74-77: the pattern and its MatchString *)
Definition GoVersionMatch (s : bytes) : outcome bool := let! re := MustCompile version_re in MatchString re s.
