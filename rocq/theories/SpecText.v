(** SpecText.v - integer texts, stated without the model. *)
From Verif Require Import Base SpecPath.

(** An integer text: an optional sign and decimal digits. What strconv.Atoi accepts, bip32/path.go:58, 67, bip32/reg_ver_bytes.go:92, 110. *)
Definition int_text (s : bytes) (v : Z) : Prop :=
  exists sg ds, s = sg ++ ds /\ numeral ds /\
    ((sg = [] \/ sg = B "+") /\ v = number ds \/ sg = B "-" /\ v = - number ds).
(** The digits at the start of the text already give 2^64 or more. bip32/path.go:58, 67, bip32/reg_ver_bytes.go:92, 110. *)
Definition too_long (s : bytes) : Prop :=
  exists sg ds r, s = sg ++ ds ++ r /\ (sg = [] \/ sg = B "+" \/ sg = B "-") /\ numeral ds /\ 2 ^ 64 <= number ds.

(** The text starts with a minus sign. bip32/path.go:58, 67, bip32/reg_ver_bytes.go:92, 110 *)
Definition negative (s : bytes) : bool := match s with c :: _ => Byte.eqb c x2d | [] => false end.
