(** SpecRegexp.v - which parts of a text a pattern describes, by the usual meaning of its operators (for C97). Nothing here
    knows of programs, engines or captures. *)
From Verif Require Import Base GoStr Bip32 GoCodec GoRegexp.

(** The rune c of w bytes at position i of a text; the patterns are those of bip32/path.go:22, 25, bip32/reg_ver_bytes.go:75. *)
Definition rune_at (s : bytes) (i : nat) (c : Z) (w : nat) : Prop := (i < length s)%nat /\ decode_rune (skipn i s) = (c, w).
(** The rune c is described by the rune r of a literal, up to case with [fold]; bip32/path.go:22 *)
Definition lit_rune (fold : bool) (r c : Z) : Prop :=
  c = r \/ fold = true /\ (65 <= r <= 90 /\ c = r + 32 \/ 97 <= r <= 122 /\ c = r - 32).
(** The rune c lies in one of the ranges; bip32/path.go:22, 25, bip32/reg_ver_bytes.go:75 *)
Fixpoint in_class (rs : list Z) (c : Z) : Prop :=
  match rs with lo :: hi :: rs => lo <= c <= hi \/ in_class rs c | _ => False end.

(** The pattern describes the bytes from i up to j of the text s; bip32/path.go:22, 25, bip32/reg_ver_bytes.go:75 *)
Inductive Den (s : bytes) : regexp -> nat -> nat -> Prop :=
| D_empty i : Den s OpEmptyMatch i i
| D_lit0 f i : Den s (OpLiteral f []) i i
| D_litS f r rs c w i j : rune_at s i c w -> lit_rune f r c -> Den s (OpLiteral f rs) (i + w) j -> Den s (OpLiteral f (r :: rs)) i j
| D_class rs c w i : rune_at s i c w -> in_class rs c -> Den s (OpCharClass rs) i (i + w)
| D_begin : Den s OpBeginText 0 0
| D_end : Den s OpEndText (length s) (length s)
| D_cap n a i j : Den s a i j -> Den s (OpCapture n a) i j
| D_star0 a i : Den s (OpStar a) i i
| D_starS a i j k : Den s a i j -> Den s (OpStar a) j k -> Den s (OpStar a) i k
| D_plus a i j k : Den s a i j -> Den s (OpStar a) j k -> Den s (OpPlus a) i k
| D_quest0 a i : Den s (OpQuest a) i i
| D_quest1 a i j : Den s a i j -> Den s (OpQuest a) i j
| D_rep0 max a i : Den s (OpRepeat 0 max a) i i
| D_repS min max a i j k : Den s a i j -> Den s (OpRepeat (min - 1) max a) j k -> Den s (OpRepeat min (S max) a) i k
| D_cat a b i j k : Den s a i j -> Den s b j k -> Den s (OpConcat a b) i k.

(** The positions of a text where a rune starts, and its end; bip32/path.go:22, 25, bip32/reg_ver_bytes.go:75 *)
Inductive boundary (s : bytes) : nat -> Prop :=
| b_0 : boundary s 0
| b_S i c w : boundary s i -> rune_at s i c w -> boundary s (i + w).

(** Classes as the parser delivers them: increasing ranges of runes; bip32/path.go:22, 25, bip32/reg_ver_bytes.go:75 *)
Fixpoint class_ok (from : Z) (rs : list Z) : Prop :=
  match rs with
  | [] => True
  | lo :: hi :: rs => from <= lo <= hi /\ class_ok (hi + 1) rs
  | _ => False
  end.
(** The patterns treated: ASCII literals, no case folding of k and s (which are equal to runes outside ASCII), bounds in order;
    bip32/path.go:22, 25, bip32/reg_ver_bytes.go:75 *)
Fixpoint re_ok (re : regexp) : Prop :=
  match re with
  | OpLiteral f rs => Forall (fun r => 0 <= r < 128 /\ (f = true -> ~ In r [75; 83; 107; 115])) rs
  | OpCharClass rs => class_ok 0 rs /\ rs <> []
  | OpCapture _ a | OpStar a | OpPlus a | OpQuest a => re_ok a
  | OpRepeat min max a => (min <= max)%nat /\ re_ok a
  | OpConcat a b => re_ok a /\ re_ok b
  | _ => True
  end.
