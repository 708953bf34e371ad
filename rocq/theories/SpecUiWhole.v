(** SpecUiWhole.v - what is supposed of a session on the libraries as written, and which session of Ui.v it belongs to. *)
From Verif Require Import Base GoStr Prims Bip39 Util GoRand SpecRand GoWhole Ui UiWhole.

(** A text that a machine can hold (the hashes count bits in 64-bit words): examples/ui/one/main.go:60-66 *)
Definition short (s : bytes) : Prop := Z.of_nat (length s) < 2 ^ 61 - 140.
(** Words that a machine can hold 24 of: bip39/bip39.go:77-84 *)
Definition short_words (wl : list bytes) : Prop := Forall (fun w => Z.of_nat (length w) < 2 ^ 56) wl.
(** The texts and sources of a session: examples/ui/one/main.go:173-412 *)
Definition g_ok (e : gevent) : Prop := match e with GEdit _ s => short s | GFrame i => gen_click (g_in i) = true -> source_ok (g_src i) end.
(** A read of the random source ends: bip39/bip39.go:107 *)
Definition g_ends (e : gevent) : Prop := match e with GEdit _ _ => True | GFrame i => gen_click (g_in i) = true -> progress (s_file (g_src i)) /\ (32 <= g_fuel i)%nat end.
(** The same clicks: examples/ui/one/main.go:181, 305, 322, 357 *)
Definition same_clicks (i j : frame_in) : Prop :=
  gen_click i = gen_click j /\ left_click i = left_click j /\ right_click i = right_click j /\ tab_clicks i = tab_clicks j.
(** The same event, the bytes of the random source left open: examples/ui/one/main.go:173-412 *)
Definition same_event (g : gevent) (e : event) : Prop :=
  match g, e with
  | GEdit FMnemonic s, EditMnemonic t | GEdit FPass s, EditPass t | GEdit FSeed s, EditSeed t | GEdit FRoot s, EditRoot t
  | GEdit FPath s, EditPath t | GEdit FRadio s, Radio t => s = t
  | GFrame i, Frame j => same_clicks (g_in i) j
  | _, _ => False
  end.
