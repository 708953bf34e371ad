(** Rx.v - regular expressions over bytes: the syntax used by /repo's patterns, their usual
    denotation [Matches], and a derivative matcher [rx_match] standing for Go's anchored
    regexp.MatchString. Go's engine works on runes; all classes used in /repo are ASCII, so a
    non-ASCII byte is matched by none of them in either reading. *)
From Verif Require Import Base.

(** for the patterns of bip32/path.go:22 and bip32/reg_ver_bytes.go:75 *)
Inductive rx :=
| Rnone
| Reps
| Rcls (p : byte -> bool)
| Rcat (a b : rx)
| Ralt (a b : rx)
| Rstar (a : rx).

(** Denotation. For the patterns of bip32/path.go:22 and bip32/reg_ver_bytes.go:75. *)
Inductive Matches : rx -> bytes -> Prop :=
| MEps : Matches Reps []
| MCls p c : p c = true -> Matches (Rcls p) [c]
| MCat a b s t : Matches a s -> Matches b t -> Matches (Rcat a b) (s ++ t)
| MAltL a b s : Matches a s -> Matches (Ralt a b) s
| MAltR a b s : Matches b s -> Matches (Ralt a b) s
| MStar0 a : Matches (Rstar a) []
| MStarS a s t : Matches a s -> Matches (Rstar a) t -> Matches (Rstar a) (s ++ t).

(** Matcher. For the patterns of bip32/path.go:22 and bip32/reg_ver_bytes.go:75. *)
Fixpoint nullable (r : rx) : bool :=
  match r with
  | Rnone => false
  | Reps => true
  | Rcls _ => false
  | Rcat a b => nullable a && nullable b
  | Ralt a b => nullable a || nullable b
  | Rstar _ => true
  end.
(** for the patterns of bip32/path.go:22 and bip32/reg_ver_bytes.go:75 *)
Fixpoint deriv (c : byte) (r : rx) : rx :=
  match r with
  | Rnone => Rnone
  | Reps => Rnone
  | Rcls p => if p c then Reps else Rnone
  | Rcat a b => if nullable a then Ralt (Rcat (deriv c a) b) (deriv c b) else Rcat (deriv c a) b
  | Ralt a b => Ralt (deriv c a) (deriv c b)
  | Rstar a => Rcat (deriv c a) (Rstar a)
  end.
(** for the patterns of bip32/path.go:22 and bip32/reg_ver_bytes.go:75 *)
Fixpoint rx_match (r : rx) (s : bytes) : bool :=
  match s with
  | [] => nullable r
  | c :: s' => rx_match (deriv c r) s'
  end.

(** Abbreviations for the concrete syntax: literal byte, +, ?, {0,n}.
    For the patterns of bip32/path.go:22 and bip32/reg_ver_bytes.go:75. *)
Definition Rchr (c : byte) : rx := Rcls (Byte.eqb c).
(** for the patterns of bip32/path.go:22 and bip32/reg_ver_bytes.go:75 *)
Definition Rplus (a : rx) : rx := Rcat a (Rstar a).
(** for the patterns of bip32/path.go:22 and bip32/reg_ver_bytes.go:75 *)
Definition Ropt (a : rx) : rx := Ralt Reps a.
(** for the patterns of bip32/path.go:22 and bip32/reg_ver_bytes.go:75 *)
Fixpoint Rupto (n : nat) (a : rx) : rx :=
  match n with O => Reps | S k => Ropt (Rcat a (Rupto k a)) end.
