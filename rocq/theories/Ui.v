(** Ui.v - model of the wallet state of the example program, examples/ui/one/main.go.
    Text fields are the text they hold: SetText and Text of a gio editor are taken to be inverse to each other.
    Edits of fields and of the radio group happen between frames: gio delivers them to the widgets while a frame is
    laid out, after the change handlers of that frame have run. Drawing and scrolling are not
    modelled; what is modelled of the layout are the click handlers and the texts of the labels. The animation is in Slider.v. *)
From Verif Require Import Base GoStr Prims Secp Base58 Bip39 UtilMnemonic Bip32Path Bip32Reg Bip32 Util.

(** The package variables: examples/ui/one/main.go:47-51 (KeyPathTabs), 53-74. A KeyPathTab (42-45) is its KeyPath; the
    Clickable is input (see [frame_in]). [screen] is not in the code: the labels drawn by the last frame below
    the tabs, None when nothing is drawn there. *)
Record ui := mkUi {
  tabs : list KeyPath; selected : Z; bps : bytes;
  mnemonicField : bytes; passField : bytes; seedField : bytes; rootField : bytes; derivationField : bytes;
  derivationStr : bytes; derivationPath : bytes; rootKeyStr : bytes; mnemonic : bytes; passPhrase : bytes; seed : bytes;
  radio : bytes; screen : option (list bytes) }.

(** Zero values of the variables, examples/ui/one/main.go:53-72, and the radio group's value "12", line 172. *)
Definition ui0 : ui := mkUi [] 0 zero_key [] [] [] [] [] [] [] [] [] [] [] (B "12") None.

(** Assignments to single variables, used at the lines cited at each handler: examples/ui/one/main.go:76-166. *)
Definition set_tabs t s (u : ui) := mkUi t s (bps u) (mnemonicField u) (passField u) (seedField u) (rootField u) (derivationField u)
  (derivationStr u) (derivationPath u) (rootKeyStr u) (mnemonic u) (passPhrase u) (seed u) (radio u) (screen u).
(** bps.SetRootKey: util/util.go:83-85 *)
Definition set_root k (u : ui) := mkUi (tabs u) (selected u) k (mnemonicField u) (passField u) (seedField u) (rootField u) (derivationField u)
  (derivationStr u) (derivationPath u) (rootKeyStr u) (mnemonic u) (passPhrase u) (seed u) (radio u) (screen u).
(** mnemonic and mnemonicField together: examples/ui/one/main.go:94-95, 131-132, 143-144 *)
Definition set_mnemonic m (u : ui) := mkUi (tabs u) (selected u) (bps u) m (passField u) (seedField u) (rootField u) (derivationField u)
  (derivationStr u) (derivationPath u) (rootKeyStr u) m (passPhrase u) (seed u) (radio u) (screen u).
(** examples/ui/one/main.go:118 *)
Definition set_pass p (u : ui) := mkUi (tabs u) (selected u) (bps u) (mnemonicField u) (passField u) (seedField u) (rootField u) (derivationField u)
  (derivationStr u) (derivationPath u) (rootKeyStr u) (mnemonic u) p (seed u) (radio u) (screen u).
(** seed and bip39SeedField together: examples/ui/one/main.go:96-97, 107-108, 119-120, 145-146 *)
Definition set_seed s (u : ui) := mkUi (tabs u) (selected u) (bps u) (mnemonicField u) (passField u) s (rootField u) (derivationField u)
  (derivationStr u) (derivationPath u) (rootKeyStr u) (mnemonic u) (passPhrase u) s (radio u) (screen u).
(** rootKeyStr and bip32RootKeyField together: examples/ui/one/main.go:102-103, 113-114, 125-126, 137-138, 152-153, 163-164 *)
Definition set_rootStr s (u : ui) := mkUi (tabs u) (selected u) (bps u) (mnemonicField u) (passField u) (seedField u) s (derivationField u)
  (derivationStr u) (derivationPath u) s (mnemonic u) (passPhrase u) (seed u) (radio u) (screen u).
(** examples/ui/one/main.go:159-160, 180 *)
Definition set_path s p (u : ui) := mkUi (tabs u) (selected u) (bps u) (mnemonicField u) (passField u) (seedField u) (rootField u) (derivationField u)
  s p (rootKeyStr u) (mnemonic u) (passPhrase u) (seed u) (radio u) (screen u).
(** What the frame draws: examples/ui/one/main.go:373-407. *)
Definition set_screen c (u : ui) := mkUi (tabs u) (selected u) (bps u) (mnemonicField u) (passField u) (seedField u) (rootField u) (derivationField u)
  (derivationStr u) (derivationPath u) (rootKeyStr u) (mnemonic u) (passPhrase u) (seed u) (radio u) c.

Section UI.
Variable H : Prims.
Variable T : tables.
Variable wst : wstate.

(** onKeyPathChange: examples/ui/one/main.go:76-89 *)
Definition onKeyPathChange (u : ui) : outcome ui :=
  let str := if PathIsValid (derivationPath u) then PathString (derivationPath u) else B "m" in
  let! (keyPaths, _) := DeriveBIP32Result H T (bps u) str in
  let n := Z.of_nat (length keyPaths) in
  Ret (set_tabs keyPaths (if selected u >=? n then n - 1 else selected u) u).

(** The lines shared by four handlers: examples/ui/one/main.go:98-103, 109-114, 121-126, 133-138. *rootKey panics on a
    nil pointer. *)
Definition rootFromSeed (u : ui) : outcome ui :=
  let! (rootKey, _) := RootKeyFromSeed H (seed u) in
  match rootKey with
  | None => Panic
  | Some k => let! u := onKeyPathChange (set_root k u) in Ret (set_rootStr (KeyString H (bps u)) u)
  end.

(** The error of DeriveSeedFromMnemonic is dropped: examples/ui/one/main.go:96-97, 107-108, 119-120. *)
Definition seedFromMnemonic (u : ui) : ui := set_seed (fst (DeriveSeedFromMnemonic H wst (mnemonic u) (passPhrase u))) u.

(** onAutoCreateMnemonicClicked: examples/ui/one/main.go:91-104; byte(wordsCount) truncates. [rd] is what the random source delivers. *)
Definition onAutoCreateMnemonicClicked (rd : bytes) (u : ui) : outcome ui :=
  let wordsCount := fst (Atoi (radio u)) in
  let! (m, _) := GenerateMnemonic H wst rd (wordsCount mod 256) in
  rootFromSeed (seedFromMnemonic (set_mnemonic m u)).
(** onMnemonicChange: examples/ui/one/main.go:105-115 *)
Definition onMnemonicChange (u : ui) : outcome ui := rootFromSeed (seedFromMnemonic (set_mnemonic (mnemonicField u) u)).
(** onMnemonicPassphraseChange: examples/ui/one/main.go:117-127 *)
Definition onMnemonicPassphraseChange (u : ui) : outcome ui := rootFromSeed (seedFromMnemonic (set_pass (passField u) u)).
(** onSeedChange: examples/ui/one/main.go:129-139 *)
Definition onSeedChange (u : ui) : outcome ui := rootFromSeed (set_mnemonic [] (set_seed (seedField u) u)).
(** onRootKeyStrChange: examples/ui/one/main.go:141-157 *)
Definition onRootKeyStrChange (u : ui) : outcome ui :=
  let u := set_seed [] (set_mnemonic [] (set_rootStr (rootField u) u)) in
  let! (rootKey, e) := B58Deserialize H (rootKeyStr u) in
  match e with
  | None => let! u := onKeyPathChange (set_root rootKey u) in Ret (set_rootStr (KeyString H (bps u)) u)
  | Some _ => Ret (set_root zero_key u)
  end.
(** OnDerivationPathChange: examples/ui/one/main.go:158-166 *)
Definition OnDerivationPathChange (u : ui) : outcome ui :=
  let! u := onKeyPathChange (set_path (derivationField u) (Formatted (derivationField u)) u) in
  Ret (set_rootStr (KeyString H (bps u)) u).

(** What the user and the machine supply to a frame: clicks on the generate button (and the random bytes), on the
    arrows, and on tabs in the order in which the list lays them out: examples/ui/one/main.go:181, 305, 322, 357. *)
Record frame_in := mkFrame { gen_click : bool; rand : bytes; left_click : bool; right_click : bool; tab_clicks : list nat }.

(** A conditional call: examples/ui/one/main.go:181-199. *)
Definition when (b : bool) (f : ui -> outcome ui) (u : ui) : outcome ui := if b then f u else Ret u.
(** The conditional calls at the start of a frame: examples/ui/one/main.go:180-199. *)
Definition handlers (i : frame_in) (u : ui) : outcome ui :=
  let u := set_path (derivationStr u) (Formatted (derivationStr u)) u in
  let! u := when (gen_click i) (onAutoCreateMnemonicClicked (rand i)) u in
  let! u := when (negb (bytes_eqb (mnemonicField u) (mnemonic u))) onMnemonicChange u in
  let! u := when (negb (bytes_eqb (passField u) (passPhrase u))) onMnemonicPassphraseChange u in
  let! u := when (negb (bytes_eqb (seedField u) (seed u))) onSeedChange u in
  let! u := when (negb (bytes_eqb (rootKeyStr u) (rootField u))) onRootKeyStrChange u in
  when (negb (bytes_eqb (PathString (derivationField u)) (PathString (derivationStr u)))) OnDerivationPathChange u.

(** One click on a tab: examples/ui/one/main.go:320-329; reading tabs[tabIdx] panics out of range. *)
Definition tab_click (u : ui) (tabIdx : nat) : outcome ui :=
  match nth_error (tabs u) tabIdx with
  | None => Panic
  | Some _ => Ret (set_tabs (tabs u) (Z.of_nat tabIdx) u)
  end.
(** List.Layout calls its function for indices below the given length only: examples/ui/one/main.go:320. *)
Fixpoint tabs_layout (l : list nat) (u : ui) : outcome ui :=
  match l with
  | [] => Ret u
  | i :: r => if Nat.ltb i (length (tabs u)) then let! u := tab_click u i in tabs_layout r u else tabs_layout r u
  end.
(** The tab bar: examples/ui/one/main.go:297-372. A Flex lays out its Rigid children (the two arrows) before the
    Flexed one (the tabs). *)
Definition tab_bar (i : frame_in) (u : ui) : outcome ui :=
  if Nat.eqb (length (tabs u)) 0 then Ret u
  else
    let u := if left_click i && (selected u >? 0) then set_tabs (tabs u) (selected u - 1) u else u in
    let u := if right_click i && (selected u <? Z.of_nat (length (tabs u)) - 1) then set_tabs (tabs u) (selected u + 1) u else u in
    tabs_layout (tab_clicks i) u.

(** The labels: examples/ui/one/main.go:373-407; the index expression of line 381 panics out of range. *)
Definition display (u : ui) : outcome (option (list bytes)) :=
  let isValid := (selected u <? Z.of_nat (length (tabs u))) && negb (Nat.eqb (length (tabs u)) 0) && (selected u >=? 0) in
  if negb isValid then Ret None
  else
    match (if selected u <? 0 then None else nth_error (tabs u) (Z.to_nat (selected u))) with
    | None => Panic
    | Some kp =>
      let k := KKey kp in
      let! a := AddrHex H T k in
      Ret (Some [PathString (KPath kp); KeyString H k; KeyString H (PublicKeyExtended T k); PrivateKeyHex k;
                 PublicKeyHex T (PublicKeyExtended T k); a])
    end.

(** One frame: examples/ui/one/main.go:177-410. *)
Definition frame (i : frame_in) (u : ui) : outcome ui :=
  let! u := handlers i u in
  let! u := tab_bar i u in
  let! c := display u in
  Ret (set_screen c u).
End UI.

(** The user's edits of the fields (Layout calls of examples/ui/one/main.go:252-288) and of the radio group (244-245), and
    frames. *)
Inductive event :=
| EditMnemonic (s : bytes) | EditPass (s : bytes) | EditSeed (s : bytes) | EditRoot (s : bytes) | EditPath (s : bytes)
| Radio (s : bytes) | Frame (i : frame_in).

(** The effect of one event: the fields of examples/ui/one/main.go:60-66, frames 177-410. *)
Definition step (H : Prims) (T : tables) (wst : wstate) (u : ui) (e : event) : outcome ui :=
  match e with
  | EditMnemonic s => Ret (mkUi (tabs u) (selected u) (bps u) s (passField u) (seedField u) (rootField u) (derivationField u)
      (derivationStr u) (derivationPath u) (rootKeyStr u) (mnemonic u) (passPhrase u) (seed u) (radio u) (screen u))
  | EditPass s => Ret (mkUi (tabs u) (selected u) (bps u) (mnemonicField u) s (seedField u) (rootField u) (derivationField u)
      (derivationStr u) (derivationPath u) (rootKeyStr u) (mnemonic u) (passPhrase u) (seed u) (radio u) (screen u))
  | EditSeed s => Ret (mkUi (tabs u) (selected u) (bps u) (mnemonicField u) (passField u) s (rootField u) (derivationField u)
      (derivationStr u) (derivationPath u) (rootKeyStr u) (mnemonic u) (passPhrase u) (seed u) (radio u) (screen u))
  | EditRoot s => Ret (mkUi (tabs u) (selected u) (bps u) (mnemonicField u) (passField u) (seedField u) s (derivationField u)
      (derivationStr u) (derivationPath u) (rootKeyStr u) (mnemonic u) (passPhrase u) (seed u) (radio u) (screen u))
  | EditPath s => Ret (mkUi (tabs u) (selected u) (bps u) (mnemonicField u) (passField u) (seedField u) (rootField u) s
      (derivationStr u) (derivationPath u) (rootKeyStr u) (mnemonic u) (passPhrase u) (seed u) (radio u) (screen u))
  | Radio s => Ret (mkUi (tabs u) (selected u) (bps u) (mnemonicField u) (passField u) (seedField u) (rootField u) (derivationField u)
      (derivationStr u) (derivationPath u) (rootKeyStr u) (mnemonic u) (passPhrase u) (seed u) s (screen u))
  | Frame i => frame H T wst i u
  end.
(** A session: examples/ui/one/main.go:173-412. *)
Fixpoint run (H : Prims) (T : tables) (wst : wstate) (u : ui) (es : list event) : outcome ui :=
  match es with
  | [] => Ret u
  | e :: r => let! u := step H T wst u e in run H T wst u r
  end.
