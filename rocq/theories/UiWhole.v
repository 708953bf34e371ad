(** UiWhole.v - the wallet of the example program once more, its calls of bip39, bip32 and util replaced by those of GoWhole: every library
    function under them is the function as it is written. The state and the events are those of Ui.v, except that a frame brings a
    random source in place of the bytes it delivers. *)
From Verif Require Import Base GoStr Prims Bip39 Bip32Path Bip32Reg Bip32 Util GoRand GoWhole Ui.

Section GUI.
Variable E : env.
Variable T : tables.
Variable wst : wstate.

(** onKeyPathChange: examples/ui/one/main.go:76-89 *)
Definition gOnKeyPathChange (u : ui) : outcome ui :=
  let! ok := gPathIsValid (derivationPath u) in
  let! str := if ok then gPathString (derivationPath u) else Ret (B "m") in
  let! (keyPaths, _) := gDeriveBIP32Result E T (bps u) str in
  let n := Z.of_nat (length keyPaths) in
  Ret (set_tabs keyPaths (if selected u >=? n then n - 1 else selected u) u).
(** rootKey.String() and SetText: examples/ui/one/main.go:101-103, 112-114, 124-126, 136-138, 151-153, 162-164 *)
Definition gRootText (u : ui) : outcome ui := let! t := gB58Serialize (bps u) in Ret (set_rootStr t u).
(** The lines shared by four handlers: examples/ui/one/main.go:98-103, 109-114, 121-126, 133-138 *)
Definition gRootFromSeed (u : ui) : outcome ui :=
  let! (rootKey, _) := gRootKeyFromSeed E (seed u) in
  match rootKey with
  | None => Panic
  | Some k => let! u := gOnKeyPathChange (set_root k u) in gRootText u
  end.
(** The error of DeriveSeedFromMnemonic is dropped: examples/ui/one/main.go:96-97, 107-108, 119-120 *)
Definition gSeedFromMnemonic (u : ui) : outcome ui :=
  let! (s, _) := gDeriveSeedFromMnemonic wst (mnemonic u) (passPhrase u) in Ret (set_seed s u).
(** onAutoCreateMnemonicClicked: examples/ui/one/main.go:91-104; None: the random source keeps the program waiting *)
Definition gOnAutoCreate (fuel : nat) (s : source) (u : ui) : option (outcome ui) :=
  let wordsCount := fst (Atoi (radio u)) in
  match gGenerateMnemonic fuel s wst (wordsCount mod 256) with
  | None => None
  | Some r => Some (let! (m, _) := r in let! u := gSeedFromMnemonic (set_mnemonic m u) in gRootFromSeed u)
  end.
(** onMnemonicChange: examples/ui/one/main.go:105-115 *)
Definition gOnMnemonicChange (u : ui) : outcome ui := let! u := gSeedFromMnemonic (set_mnemonic (mnemonicField u) u) in gRootFromSeed u.
(** onMnemonicPassphraseChange: examples/ui/one/main.go:117-127 *)
Definition gOnPassphraseChange (u : ui) : outcome ui := let! u := gSeedFromMnemonic (set_pass (passField u) u) in gRootFromSeed u.
(** onSeedChange: examples/ui/one/main.go:129-139 *)
Definition gOnSeedChange (u : ui) : outcome ui := gRootFromSeed (set_mnemonic [] (set_seed (seedField u) u)).
(** onRootKeyStrChange: examples/ui/one/main.go:141-157 *)
Definition gOnRootKeyStrChange (u : ui) : outcome ui :=
  let u := set_seed [] (set_mnemonic [] (set_rootStr (rootField u) u)) in
  let! (rootKey, e) := gB58Deserialize (rootKeyStr u) in
  match e with
  | None => let! u := gOnKeyPathChange (set_root rootKey u) in gRootText u
  | Some _ => Ret (set_root zero_key u)
  end.
(** OnDerivationPathChange: examples/ui/one/main.go:158-166 *)
Definition gOnDerivationPathChange (u : ui) : outcome ui :=
  let! f := gPathString (derivationField u) in
  let! u := gOnKeyPathChange (set_path (derivationField u) f u) in
  gRootText u.

(** What a frame is given: the clicks of [frame_in], whose bytes are not looked at, and the random source: examples/ui/one/main.go:181, 305, 322, 357 *)
Record gframe_in := mkGFrame { g_in : frame_in; g_fuel : nat; g_src : source }.
(** The first lines of a frame: examples/ui/one/main.go:180-183 *)
Definition gHandlers1 (i : gframe_in) (u : ui) : option (outcome ui) :=
  match gPathString (derivationStr u) with
  | Panic => Some Panic
  | Ret f =>
    let u := set_path (derivationStr u) f u in
    if gen_click (g_in i) then gOnAutoCreate (g_fuel i) (g_src i) u else Some (Ret u)
  end.
(** The conditional calls that follow: examples/ui/one/main.go:184-199 *)
Definition gHandlers2 (u : ui) : outcome ui :=
  let! u := when (negb (bytes_eqb (mnemonicField u) (mnemonic u))) gOnMnemonicChange u in
  let! u := when (negb (bytes_eqb (passField u) (passPhrase u))) gOnPassphraseChange u in
  let! u := when (negb (bytes_eqb (seedField u) (seed u))) gOnSeedChange u in
  let! u := when (negb (bytes_eqb (rootKeyStr u) (rootField u))) gOnRootKeyStrChange u in
  let! a := gPathString (derivationField u) in
  let! b := gPathString (derivationStr u) in
  when (negb (bytes_eqb a b)) gOnDerivationPathChange u.
(** The labels: examples/ui/one/main.go:373-407 *)
Definition gDisplay (u : ui) : outcome (option (list bytes)) :=
  let isValid := (selected u <? Z.of_nat (length (tabs u))) && negb (Nat.eqb (length (tabs u)) 0) && (selected u >=? 0) in
  if negb isValid then Ret None
  else
    match (if selected u <? 0 then None else nth_error (tabs u) (Z.to_nat (selected u))) with
    | None => Panic
    | Some kp =>
      let k := KKey kp in
      let! path := gPathString (KPath kp) in
      let! prv := gB58Serialize k in
      let! ext := gPublicKeyExtended E T k in
      let! pub := gB58Serialize ext in
      let! prvHex := gPrivateKeyHex k in
      let! pubHex := gPublicKeyHex E T ext in
      let! a := gAddrHex E T k in
      Ret (Some [path; prv; pub; prvHex; pubHex; a])
    end.
(** One frame: examples/ui/one/main.go:177-410 *)
Definition gFrame (i : gframe_in) (u : ui) : option (outcome ui) :=
  match gHandlers1 i u with
  | None => None
  | Some r => Some (
    let! u := r in
    let! u := gHandlers2 u in
    let! u := tab_bar (g_in i) u in
    let! c := gDisplay u in
    Ret (set_screen c u))
  end.
(** What the user edits: examples/ui/one/main.go:60-66, 244-245 *)
Inductive field := FMnemonic | FPass | FSeed | FRoot | FPath | FRadio.
(** An edit leaves a new text in a field, or a new value in the radio group: examples/ui/one/main.go:244-245, 252-288 *)
Definition edit (f : field) (s : bytes) (u : ui) : ui :=
  let is g := match f, g with FMnemonic, FMnemonic | FPass, FPass | FSeed, FSeed | FRoot, FRoot | FPath, FPath | FRadio, FRadio => true | _, _ => false end in
  let pick g old := if is g then s else old in
  mkUi (tabs u) (selected u) (bps u) (pick FMnemonic (mnemonicField u)) (pick FPass (passField u)) (pick FSeed (seedField u)) (pick FRoot (rootField u))
    (pick FPath (derivationField u)) (derivationStr u) (derivationPath u) (rootKeyStr u) (mnemonic u) (passPhrase u) (seed u) (pick FRadio (radio u)) (screen u).
(** Edits and frames: examples/ui/one/main.go:173-412 *)
Inductive gevent := GEdit (f : field) (s : bytes) | GFrame (i : gframe_in).
(** The effect of one event: examples/ui/one/main.go:60-66, 177-410 *)
Definition gStep (u : ui) (e : gevent) : option (outcome ui) :=
  match e with GEdit f s => Some (Ret (edit f s u)) | GFrame i => gFrame i u end.
(** A session: examples/ui/one/main.go:173-412 *)
Fixpoint gRun (u : ui) (es : list gevent) : option (outcome ui) :=
  match es with
  | [] => Some (Ret u)
  | e :: r => match gStep u e with None => None | Some Panic => Some Panic | Some (Ret u) => gRun u r end
  end.
End GUI.
