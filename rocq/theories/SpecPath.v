(** SpecPath.v - specification of derivation path texts (BIP-32 notation), independent of the model. *)
From Verif Require Import Base.

(** Decimal digits and the value of a digit string. For bip32/path.go:45-79. *)
Definition digit (c : byte) : Prop := In c (B "0123456789").
(** For bip32/path.go:45-79. *)
Definition numeral (s : bytes) : Prop := s <> [] /\ Forall digit s.
(** For bip32/path.go:45-79. *)
Fixpoint number_from (acc : Z) (s : bytes) : Z :=
  match s with [] => acc | c :: r => number_from (10 * acc + (Zb c - 48)) r end.
(** For bip32/path.go:45-79. *)
Definition number (s : bytes) : Z := number_from 0 s.

(** White space as deleted by Path.String: tab, line feed, form feed, carriage return, space. For bip32/path.go:24-31. *)
Definition ws (c : byte) : Prop := In c [x09; x0a; x0c; x0d; x20].
(** [stripped p s]: s is p without its white-space bytes. For bip32/path.go:24-31. *)
Inductive stripped : bytes -> bytes -> Prop :=
| strip_nil : stripped [] []
| strip_ws c p s : ws c -> stripped p s -> stripped (c :: p) s
| strip_keep c p s : ~ ws c -> stripped p s -> stripped (c :: p) (c :: s).

(** The grammar: m or M, components /digits', components /digits. For bip32/path.go:33-43. *)
Definition hard_text (a : bytes) : bytes := B "/" ++ a ++ B "'".
(** For bip32/path.go:33-43. *)
Definition soft_text (a : bytes) : bytes := B "/" ++ a.
(** For bip32/path.go:33-43. *)
Definition path_text (m : byte) (hs ss : list bytes) : bytes :=
  m :: concat (map hard_text hs) ++ concat (map soft_text ss).
(** For bip32/path.go:33-43. *)
Definition path_grammar (s : bytes) (hs ss : list bytes) : Prop :=
  exists m, (m = x6d \/ m = x4d) /\ Forall numeral hs /\ Forall numeral ss /\ s = path_text m hs ss.

(** The values of a path according to BIP-32: index + 2^31 for primed components. For bip32/path.go:45-79. *)
Definition path_values (hs ss : list bytes) : list Z := map (fun a => number a + 2 ^ 31) hs ++ map number ss.
