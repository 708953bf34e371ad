(** UiWholeFacts.v - proofs about UiWhole.v. *)
From Verif Require Import Base BaseFacts GoStr GoStrFacts HexFacts Prims Hash HashFacts Bip39 SpecBip39 Bip39Facts UtilMnemonic UtilMnemonicFacts Bip32Path Bip32Reg Bip32 Bip32Facts Bip32KeyFacts Util SpecUi Ui UiFacts GoRand SpecRand GoWhole GoWholeFacts GoFmtFacts UiWhole SpecUiWhole.
From Verif Require ClaimsRand.
From Coq Require Import Lia.

(** ** Lengths *)
Lemma flat_len : forall l, Forall (fun w : bytes => Z.of_nat (length w) < 2 ^ 56) l -> Z.of_nat (length (flat_map (fun w => B " " ++ w) l)) <= Z.of_nat (length l) * 2 ^ 56.
Proof.
  induction l as [|w r IH]; intros F; [reflexivity|]. inversion F as [|? ? F1 F2]; subst. specialize (IH F2). cbn [flat_map]. rewrite app_length. change (length (B " " ++ w)) with (S (length w)). cbn [length]. lia.
Qed.
Lemma new_short : forall wl bs m e, good_list wl -> short_words wl -> NewMnemonic RealPrims (SetWordList wl) bs = Ret (m, e) -> short m.
Proof.
  intros wl bs m e HG SW N. destruct (in_dec Nat.eq_dec (length bs) [16; 20; 24; 28; 32]%nat) as [I|I].
    - assert (SO : entropy_size_ok bs) by exact I. assert (HL : (2048 <= length (wordList (SetWordList wl)))%nat) by (destruct HG as [HL _]; cbn [SetWordList wordList]; lia).
      rewrite (NewMnemonic_ok RealPrims (SetWordList wl) bs real_prims_ok HL SO) in N. injection N as <- _. cbn [SetWordList wordList].
      pose proof (bip39_words_length RealPrims wl bs real_prims_ok SO) as L.
      assert (F : Forall (fun w : bytes => Z.of_nat (length w) < 2 ^ 56) (bip39_words RealPrims wl bs)). { apply Forall_forall. intros w I'. apply (proj1 (Forall_forall _ _) SW). apply (bip39_words_in RealPrims wl bs w real_prims_ok HG SO I'). }
      assert (L24 : (length (bip39_words RealPrims wl bs) <= 24)%nat). { rewrite L. assert (length bs / 4 <= 32 / 4)%nat by (apply Nat.div_le_mono; [lia|]; cbn in I; lia). change (32 / 4)%nat with 8%nat in *. lia. }
      destruct (bip39_words RealPrims wl bs) as [|w ws]; [reflexivity|]. rewrite Join_flat. inversion F as [|? ? F1 F2]; subst. pose proof (flat_len ws F2) as FL. unfold short. rewrite app_length. cbn [length] in L24.
      assert (2 ^ 61 = 32 * 2 ^ 56) by reflexivity. assert (140 < 2 ^ 56) by reflexivity. assert (Z.of_nat (length ws) * 2 ^ 56 <= 23 * 2 ^ 56) by (apply Z.mul_le_mono_nonneg_r; lia). change (Z.of_nat (length w + length (flat_map (fun w : bytes => B " " ++ w) ws)) < 2 ^ 61 - 140). lia.
    - rewrite (NewMnemonic_bad RealPrims (SetWordList wl) bs I) in N. injection N as <- _. reflexivity.
Qed.
Lemma words_short : forall wl bs, good_list wl -> short_words wl -> entropy_size_ok bs -> short (Join (B " ") (bip39_words RealPrims wl bs)).
Proof.
  intros wl bs HG SW SO. apply (new_short wl bs _ None HG SW). assert (HL : (2048 <= length (wordList (SetWordList wl)))%nat) by (destruct HG as [HL _]; cbn [SetWordList wordList]; lia).
  rewrite (NewMnemonic_ok RealPrims (SetWordList wl) bs real_prims_ok HL SO). reflexivity.
Qed.
Lemma gen_short : forall wl rd n m e, good_list wl -> short_words wl -> GenerateMnemonic RealPrims (SetWordList wl) rd n = Ret (m, e) -> short m.
Proof.
  intros wl rd n m e HG SW G.
  assert (N : forall bs m' e', NewMnemonic RealPrims (SetWordList wl) bs = Ret (m', e') -> short m') by (intros bs m' e'; apply new_short; assumption).
  unfold GenerateMnemonic in G. destruct (if n =? 12 then _ else _) as [b|]; [|injection G as <- _; reflexivity].
  destruct (NewEntropy rd b) as [bs [er|]]; [injection G as <- _; reflexivity|].
  destruct (NewMnemonic RealPrims (SetWordList wl) bs) as [[m' [e'|]]|] eqn:EN; [injection G as <- _; reflexivity| |discriminate G]. injection G as <- _. exact (N bs m' None EN).
Qed.
Lemma seed_short : forall wst m pw, short (fst (DeriveSeedFromMnemonic RealPrims wst m pw)).
Proof.
  intros wst m pw. unfold DeriveSeedFromMnemonic. destruct (EntropyFromMnemonic RealPrims wst m) as [a [e|]]; [reflexivity|]. cbn [fst]. unfold short. rewrite HexEncode_length, (proj1 (seed_gating RealPrims wst m pw real_prims_ok)). reflexivity.
Qed.

(** ** One handler after the other *)
(** In proofs; for examples/ui/one/main.go:76-104, 173-412. *)
Definition texts (u : ui) : Prop := short (mnemonicField u) /\ short (passField u) /\ short (seedField u) /\ short (mnemonic u) /\ short (passPhrase u) /\ short (seed u).
Lemma texts_ext u u' : mnemonicField u' = mnemonicField u -> passField u' = passField u -> seedField u' = seedField u -> mnemonic u' = mnemonic u -> passPhrase u' = passPhrase u -> seed u' = seed u -> texts u -> texts u'.
Proof. unfold texts. intros -> -> -> -> -> ->. auto. Qed.

Lemma same_exists : forall es, exists es', Forall2 same_event es es'.
Proof.
  induction es as [|e r (es' & IH)]; [exists []; apply Forall2_nil|]. assert (C : exists e', same_event e e').
  { destruct e as [f s|i]; [|exists (Frame (g_in i)); repeat split]. destruct f; [exists (EditMnemonic s)|exists (EditPass s)|exists (EditSeed s)|exists (EditRoot s)|exists (EditPath s)|exists (Radio s)]; reflexivity. }
  destruct C as (e' & C). exists (e' :: es'). apply Forall2_cons; assumption.
Qed.
(** ** The random source *)
Lemma ReadFull_mono : forall f f' r c b n x, (f <= f')%nat -> ReadFull f r c b n = Some x -> ReadFull f' r c b n = Some x.
Proof.
  induction f as [|f IH]; intros f' r c b n x L G.
  - cbn [ReadFull] in G. destruct f'; cbn [ReadFull]; destruct (length b <=? n)%nat; try exact G; discriminate G.
  - destruct f' as [|f']; [lia|]. cbn [ReadFull] in G |- *. destruct (length b <=? n)%nat; [exact G|]. destruct (r c (skipn n b)) as [[p k] [e|]]; [exact G|]. apply IH; [lia|exact G].
Qed.
Lemma rand_reader_mono : forall f f' s b x, (f <= f')%nat -> rand_reader f s b = Some x -> rand_reader f' s b = Some x.
Proof.
  intros f f' s b x L G. unfold rand_reader in G |- *. cbv zeta in G |- *. destruct (s_max s) as [mx|].
  - destruct (batched (length b) (s_sys s) mx 0 b) as [b' [e|]]; [|exact G]. destruct (s_open s); [exact G|]. exact (ReadFull_mono _ _ _ _ _ _ _ L G).
  - destruct (s_open s); [exact G|]. exact (ReadFull_mono _ _ _ _ _ _ _ L G).
Qed.
Lemma RandRead_mono : forall f f' s b x, (f <= f')%nat -> RandRead f s b = Some x -> RandRead f' s b = Some x.
Proof.
  intros f f' s b x L G. unfold RandRead in G |- *. destruct b as [|y b]; [exact G|]. destruct (rand_reader f s (y :: b)) as [q|] eqn:RR; [|discriminate G]. rewrite (rand_reader_mono f f' s _ q L RR). exact G.
Qed.
Lemma gen_ends : forall fuel s st n, source_ok s -> progress (s_file s) -> (32 <= fuel)%nat -> exists r, gGenerateMnemonic fuel s st n = Some r.
Proof.
  intros fuel s st n SO PR L. unfold gGenerateMnemonic. cbv zeta.
  assert (N : forall b, In b [128; 160; 192; 224; 256] -> exists bs, NewEntropyFrom fuel s b = Some (bs, None)).
  { intros b I. unfold NewEntropyFrom. replace (validateEntropyBitSize b) with (@None err) by (cbn in I; repeat (destruct I as [<- | I]; [reflexivity|]); destruct I).
    destruct (ClaimsRand.C100_ends_l s (repeat x00 (Z.to_nat (Z.quot b 8))) SO PR) as ([[b' m] e] & RR). rewrite repeat_length in RR. assert (LE : (Z.to_nat (Z.quot b 8) <= fuel)%nat) by (cbn in I; repeat (destruct I as [<- | I]; [cbn; lia|]); destruct I). rewrite (RandRead_mono _ fuel s _ _ LE RR). exists b'. reflexivity. }
  repeat match goal with |- context [if n =? ?c then _ else _] => destruct (n =? c) end;
    try (match goal with |- context [NewEntropyFrom fuel s ?b] => destruct (N b ltac:(cbn; tauto)) as (bs & ->) end); eexists; reflexivity.
Qed.

Section EQ.
Variables (E : env) (T : tables) (wl : list bytes).
Hypothesis EO : env_ok E.
Hypothesis HT : after_init T.
Hypothesis HG : good_list wl.
Hypothesis HW : text_words wl.
Hypothesis SW : short_words wl.
Let wst := SetWordList wl.
Let R := RealPrims.

Lemma okp_eq u : wf_key (bps u) -> gOnKeyPathChange E T u = onKeyPathChange R T u.
Proof.
  intros W. unfold gOnKeyPathChange, onKeyPathChange. rewrite gPathIsValid_ok. cbn [bind].
  replace (if PathIsValid (derivationPath u) then gPathString (derivationPath u) else Ret (B "m")) with (Ret (if PathIsValid (derivationPath u) then PathString (derivationPath u) else B "m")) by (destruct (PathIsValid (derivationPath u)); [rewrite gPathString_ok|]; reflexivity).
  cbn [bind]. rewrite (gDerive_ok E EO T _ _ HT W). reflexivity.
Qed.
Lemma okp_form u u' : onKeyPathChange R T u = Ret u' -> exists t s, u' = set_tabs t s u.
Proof. unfold onKeyPathChange. destruct (DeriveBIP32Result R T (bps u) _) as [[k e]|]; cbn [bind]; intros G; [|discriminate G]. injection G as <-. eexists _, _. reflexivity. Qed.
Lemma text_eq u : wf_key (bps u) -> gRootText u = Ret (set_rootStr (KeyString R (bps u)) u).
Proof. intros W. unfold gRootText. rewrite (gB58Serialize_ok _ (wf61 _ W)). reflexivity. Qed.
Lemma okp_text u : wf_key (bps u) -> (let! v := gOnKeyPathChange E T u in gRootText v) = (let! v := onKeyPathChange R T u in Ret (set_rootStr (KeyString R (bps v)) v)).
Proof.
  intros W. rewrite (okp_eq u W). destruct (onKeyPathChange R T u) as [v|] eqn:O; [|reflexivity]. cbn [bind]. destruct (okp_form u v O) as (t & s & ->). apply text_eq. exact W.
Qed.
Lemma rfs_eq u : short (seed u) -> gRootFromSeed E T u = rootFromSeed R T u.
Proof.
  intros S. unfold gRootFromSeed, rootFromSeed. rewrite (gRootKeyFromSeed_ok E EO); [|unfold short in S; lia].
  pose proof (RootKey_safe R (seed u) real_prims_ok) as RS. fold R. destruct (RootKeyFromSeed R (seed u)) as [[r e]|]; [|reflexivity]. cbn [bind]. destruct RS as (k & K & W). cbn [fst] in K. subst r. apply okp_text. exact W.
Qed.
Lemma rfs_form u u' : rootFromSeed R T u = Ret u' -> texts u -> texts u'.
Proof.
  unfold rootFromSeed. destruct (RootKeyFromSeed R (seed u)) as [[[k|] e]|]; cbn [bind]; intros G; try discriminate G. destruct (onKeyPathChange R T (set_root k u)) as [v|] eqn:O; cbn [bind] in G; [|discriminate G]. injection G as <-.
  destruct (okp_form _ _ O) as (t & s & ->). intros TX; exact TX.
Qed.
Lemma sfm_eq u : short (mnemonic u) -> short (passPhrase u) -> gSeedFromMnemonic wst u = Ret (seedFromMnemonic R wst u).
Proof.
  intros A C. unfold gSeedFromMnemonic, seedFromMnemonic. rewrite gDeriveSeed_ok; [|unfold short in A; lia|exact C]. fold R. destruct (DeriveSeedFromMnemonic R wst (mnemonic u) (passPhrase u)) as [s e]. reflexivity.
Qed.
Lemma sfm_texts u : texts u -> texts (seedFromMnemonic R wst u).
Proof. intros (A1 & A2 & A3 & A4 & A5 & A6). pose proof (seed_short wst (mnemonic u) (passPhrase u)). repeat split; assumption. Qed.

Lemma gen_eq fuel s u r : texts u -> source_ok s -> gOnAutoCreate E T wst fuel s u = Some r ->
  exists rd, r = onAutoCreateMnemonicClicked R T wst rd u /\ (forall u', r = Ret u' -> texts u') /\
    (forall n, n = fst (Atoi (radio u)) mod 256 -> In n [12; 15; 18; 21; 24] -> (exists w, answered s (Z.to_nat (n / 3 * 4)) w) -> answered s (Z.to_nat (n / 3 * 4)) rd).
Proof.
  intros TX SO G. unfold gOnAutoCreate in G. cbv zeta in G. set (n := fst (Atoi (radio u)) mod 256) in *.
  destruct (gGenerateMnemonic fuel s wst n) as [q|] eqn:GG; [|discriminate G]. destruct (gGenerateMnemonic_ok fuel s wst n q SO GG) as (rd & Q & AW). exists rd.
  unfold onAutoCreateMnemonicClicked. cbv zeta. fold n. fold R in Q. rewrite <- Q. injection G as G. destruct q as [[m e]|]; cbn [bind] in G |- *; [|subst r; split; [reflexivity|]; split; [discriminate|intros n' -> I W; exact (AW I W)]].
  assert (TM : texts (set_mnemonic m u)). { pose proof (gen_short wl rd n m e HG SW (eq_sym Q)) as SM. destruct TX as (A1 & A2 & A3 & A4 & A5 & A6). repeat split; assumption. }
  pose proof (sfm_texts _ TM) as TS. rewrite sfm_eq in G by apply TM. cbn [bind] in G. rewrite rfs_eq in G by apply TS.
  split; [symmetry; exact G|]. split; [intros u' Eu; subst r; exact (rfs_form _ _ Eu TS)|]. intros n' -> I W; exact (AW I W).
Qed.
Lemma mnem_eq u : texts u -> gOnMnemonicChange E T wst u = onMnemonicChange R T wst u /\ (forall u', onMnemonicChange R T wst u = Ret u' -> texts u').
Proof.
  intros TX. assert (TM : texts (set_mnemonic (mnemonicField u) u)) by (destruct TX as (A1 & A2 & A3 & A4 & A5 & A6); repeat split; assumption). pose proof (sfm_texts _ TM) as TS.
  unfold gOnMnemonicChange, onMnemonicChange. rewrite sfm_eq by apply TM. cbn [bind]. split; [apply rfs_eq, TS|]. intros u' G. exact (rfs_form _ _ G TS).
Qed.
Lemma pass_eq u : texts u -> gOnPassphraseChange E T wst u = onMnemonicPassphraseChange R T wst u /\ (forall u', onMnemonicPassphraseChange R T wst u = Ret u' -> texts u').
Proof.
  intros TX. assert (TM : texts (set_pass (passField u) u)) by (destruct TX as (A1 & A2 & A3 & A4 & A5 & A6); repeat split; assumption). pose proof (sfm_texts _ TM) as TS.
  unfold gOnPassphraseChange, onMnemonicPassphraseChange. rewrite sfm_eq by apply TM. cbn [bind]. split; [apply rfs_eq, TS|]. intros u' G. exact (rfs_form _ _ G TS).
Qed.
Lemma seed_eq u : texts u -> gOnSeedChange E T u = onSeedChange R T u /\ (forall u', onSeedChange R T u = Ret u' -> texts u').
Proof.
  intros TX. assert (TM : texts (set_mnemonic [] (set_seed (seedField u) u))) by (destruct TX as (A1 & A2 & A3 & A4 & A5 & A6); repeat split; try assumption; reflexivity).
  unfold gOnSeedChange, onSeedChange. split; [apply rfs_eq, TM|]. intros u' G. exact (rfs_form _ _ G TM).
Qed.
Lemma root_eq u : texts u -> gOnRootKeyStrChange E T u = onRootKeyStrChange R T u /\ (forall u', onRootKeyStrChange R T u = Ret u' -> texts u').
Proof.
  intros TX. unfold gOnRootKeyStrChange, onRootKeyStrChange. cbv zeta. set (v := set_seed [] _).
  assert (TV : texts v) by (destruct TX as (A1 & A2 & A3 & A4 & A5 & A6); repeat split; try assumption; reflexivity). clearbody v.
  rewrite gB58Deserialize_ok. fold R. destruct (B58_total R (rootKeyStr v) real_prims_ok) as (k & e & D & W). rewrite D. cbn [bind]. destruct e as [e|].
  - split; [reflexivity|]. intros u' G. injection G as <-. exact TV.
  - split; [apply okp_text; exact W|]. intros u' G. destruct (onKeyPathChange R T (set_root k v)) as [w|] eqn:O; cbn [bind] in G; [|discriminate G]. injection G as <-. destruct (okp_form _ _ O) as (t & s & ->). exact TV.
Qed.
Lemma path_eq u : wf_key (bps u) -> texts u -> gOnDerivationPathChange E T u = OnDerivationPathChange R T u /\ (forall u', OnDerivationPathChange R T u = Ret u' -> texts u').
Proof.
  intros W TX. unfold gOnDerivationPathChange, OnDerivationPathChange. rewrite gPathString_ok. cbn [bind]. split; [apply okp_text; exact W|].
  intros u' G. destruct (onKeyPathChange R T _) as [w|] eqn:O; cbn [bind] in G; [|discriminate G]. injection G as <-. destruct (okp_form _ _ O) as (t & s & ->). exact TX.
Qed.

(** In proofs; for examples/ui/one/main.go:76-104, 173-412. *)
Definition ok (u : ui) : Prop := Inv R T wl u /\ texts u.
Lemma when_eq b g f (S : ui -> Prop) u : ok u -> (ok u -> g u = f u /\ safe R (Inv R T wl) (f u) /\ (forall u', f u = Ret u' -> texts u')) ->
  when b g u = when b f u /\ (forall u', when b f u = Ret u' -> ok u').
Proof.
  intros O F. destruct b; cbn [when]; [|split; [reflexivity|]; intros u' G; injection G as <-; exact O]. destruct (F O) as (EQ & SF & TX). split; [exact EQ|].
  intros u' G. rewrite G in SF. split; [exact SF|]. exact (TX u' G).
Qed.
Lemma sf {A} (P Q : A -> Prop) o : (forall x, P x -> Q x) -> safe R P o -> safe R Q o. Proof. apply safe_impl. Qed.
(** In proofs; for examples/ui/one/main.go:76-104, 173-412. *)
Definition handlers2 (u : ui) : outcome ui :=
  let! u := when (negb (bytes_eqb (mnemonicField u) (mnemonic u))) (onMnemonicChange R T wst) u in
  let! u := when (negb (bytes_eqb (passField u) (passPhrase u))) (onMnemonicPassphraseChange R T wst) u in
  let! u := when (negb (bytes_eqb (seedField u) (seed u))) (onSeedChange R T) u in
  let! u := when (negb (bytes_eqb (rootKeyStr u) (rootField u))) (onRootKeyStrChange R T) u in
  when (negb (bytes_eqb (PathString (derivationField u)) (PathString (derivationStr u)))) (OnDerivationPathChange R T) u.
Lemma handlers2_eq u : ok u -> gHandlers2 E T wst u = handlers2 u /\ (forall u', handlers2 u = Ret u' -> ok u').
Proof.
  intros O. unfold gHandlers2, handlers2. pose proof real_prims_ok as HP.
  destruct (when_eq (negb (bytes_eqb (mnemonicField u) (mnemonic u))) (gOnMnemonicChange E T wst) (onMnemonicChange R T wst) (fun _ => True) u O) as [-> N].
  { intros [I TX]. destruct (mnem_eq u TX) as [Q Q']. split; [exact Q|]. split; [|exact Q']. eapply safe_impl; [|apply mnem_ok; assumption]. cbv beta. tauto. }
  destruct (when _ (onMnemonicChange R T wst) u) as [u1|]; [|split; [reflexivity|discriminate]]. cbn [bind]. specialize (N _ eq_refl). clear u O. rename N into O, u1 into u.
  destruct (when_eq (negb (bytes_eqb (passField u) (passPhrase u))) (gOnPassphraseChange E T wst) (onMnemonicPassphraseChange R T wst) (fun _ => True) u O) as [-> N].
  { intros [I TX]. destruct (pass_eq u TX) as [Q Q']. split; [exact Q|]. split; [|exact Q']. eapply safe_impl; [|apply pass_ok; assumption]. cbv beta. tauto. }
  destruct (when _ (onMnemonicPassphraseChange R T wst) u) as [u1|]; [|split; [reflexivity|discriminate]]. cbn [bind]. specialize (N _ eq_refl). clear u O. rename N into O, u1 into u.
  destruct (when_eq (negb (bytes_eqb (seedField u) (seed u))) (gOnSeedChange E T) (onSeedChange R T) (fun _ => True) u O) as [-> N].
  { intros [I TX]. destruct (seed_eq u TX) as [Q Q']. split; [exact Q|]. split; [|exact Q']. eapply safe_impl; [|apply (seed_ok R T wl); assumption]. cbv beta. tauto. }
  destruct (when _ (onSeedChange R T) u) as [u1|]; [|split; [reflexivity|discriminate]]. cbn [bind]. specialize (N _ eq_refl). clear u O. rename N into O, u1 into u.
  destruct (when_eq (negb (bytes_eqb (rootKeyStr u) (rootField u))) (gOnRootKeyStrChange E T) (onRootKeyStrChange R T) (fun _ => True) u O) as [-> N].
  { intros [I TX]. destruct (root_eq u TX) as [Q Q']. split; [exact Q|]. split; [|exact Q']. eapply safe_impl; [|apply (root_ok R T wl); assumption]. cbv beta. tauto. }
  destruct (when _ (onRootKeyStrChange R T) u) as [u1|]; [|split; [reflexivity|discriminate]]. cbn [bind]. specialize (N _ eq_refl). clear u O. rename N into O, u1 into u.
  rewrite !gPathString_ok. cbn [bind].
  apply (when_eq _ (gOnDerivationPathChange E T) (OnDerivationPathChange R T) (fun _ => True) u O).
  intros [I TX]. destruct (path_eq u (proj1 (proj1 I)) TX) as [Q Q']. split; [exact Q|]. split; [|exact Q']. eapply safe_impl; [|apply (path_ok R T wl); assumption]. cbv beta. tauto.
Qed.
Lemma ext_wf k : wf_key k -> wf_key (PublicKeyExtended T k).
Proof. intros W. unfold PublicKeyExtended, SetVersion. destruct (IsPrivate k); repeat (apply copy_wf; [lia|]); exact W. Qed.
Lemma display_eq u : I0 u -> gDisplay E T u = display R T u.
Proof.
  intros (W & F & _). unfold gDisplay, display. cbv zeta. destruct (negb _); [reflexivity|]. destruct (if selected u <? 0 then None else nth_error (tabs u) (Z.to_nat (selected u))) as [kp|] eqn:N; [|reflexivity].
  assert (WK : wf_key (KKey kp)). { destruct (selected u <? 0); [discriminate N|]. apply nth_error_In in N. exact (proj1 (Forall_forall _ _) F kp N). }
  pose proof (ext_wf _ WK) as WE. rewrite gPathString_ok. cbn [bind]. rewrite (gB58Serialize_ok _ (wf61 _ WK)). cbn [bind]. rewrite (gPublicKeyExtended_ok E EO T _ WK). cbn [bind]. rewrite (gB58Serialize_ok _ (wf61 _ WE)). cbn [bind].
  rewrite gPrivateKeyHex_ok. cbn [bind]. rewrite (gPublicKeyHex_ok E EO T _ WE). cbn [bind]. rewrite (gAddrHex_ok E EO T _ WK). reflexivity.
Qed.
(** In proofs; for examples/ui/one/main.go:76-104, 173-412. *)
Definition with_rand (i : frame_in) (rd : bytes) : frame_in := mkFrame (gen_click i) rd (left_click i) (right_click i) (tab_clicks i).
Lemma frame_split i u : frame R T wst i u = (let! v := when (gen_click i) (onAutoCreateMnemonicClicked R T wst (rand i)) (set_path (derivationStr u) (Formatted (derivationStr u)) u) in
  let! v := handlers2 v in let! v := tab_bar i v in let! c := display R T v in Ret (set_screen c v)).
Proof.
  unfold frame, handlers, handlers2. cbv zeta. destruct (when (gen_click i) _ _) as [u1|]; [|reflexivity]. cbn [bind]. destruct (when _ (onMnemonicChange R T wst) _) as [u2|]; [|reflexivity]. cbn [bind].
  destruct (when _ (onMnemonicPassphraseChange R T wst) _) as [u3|]; [|reflexivity]. cbn [bind]. destruct (when _ (onSeedChange R T) _) as [u4|]; [|reflexivity]. cbn [bind]. destruct (when _ (onRootKeyStrChange R T) _) as [u5|]; reflexivity.
Qed.
Lemma frame_eq i u r : ok u -> (gen_click (g_in i) = true -> source_ok (g_src i)) -> gFrame E T wst i u = Some r ->
  exists rd, r = frame R T wst (with_rand (g_in i) rd) u /\ (forall u', r = Ret u' -> ok u') /\
    (forall n, n = fst (Atoi (radio u)) mod 256 -> In n [12; 15; 18; 21; 24] -> gen_click (g_in i) = true -> (exists w, answered (g_src i) (Z.to_nat (n / 3 * 4)) w) -> answered (g_src i) (Z.to_nat (n / 3 * 4)) rd).
Proof.
  intros [I TX] SO G. pose proof real_prims_ok as HP. unfold gFrame in G. destruct (gHandlers1 E T wst i u) as [q|] eqn:G1; [|discriminate G]. injection G as G.
  set (u0 := set_path (derivationStr u) (Formatted (derivationStr u)) u).
  assert (O0 : ok u0). { split; [|exact TX]. destruct I as [HI (HD & HR)]. split; [revert HI; apply I0_ext; reflexivity|]. split; [reflexivity|exact HR]. }
  assert (D : exists rd, q = when (gen_click (g_in i)) (onAutoCreateMnemonicClicked R T wst rd) u0 /\ (forall u', q = Ret u' -> ok u') /\
    (forall n, n = fst (Atoi (radio u)) mod 256 -> In n [12; 15; 18; 21; 24] -> gen_click (g_in i) = true -> (exists w, answered (g_src i) (Z.to_nat (n / 3 * 4)) w) -> answered (g_src i) (Z.to_nat (n / 3 * 4)) rd)).
  { unfold gHandlers1 in G1. rewrite gPathString_ok in G1. cbv zeta in G1. fold (Formatted (derivationStr u)) in G1. fold u0 in G1. destruct (gen_click (g_in i)); cbn [when].
    - destruct (gen_eq _ _ u0 q (proj2 O0) (SO eq_refl) G1) as (rd & Q & TQ & A). exists rd. split; [exact Q|]. split; [|intros n N II _; exact (A n N II)].
      intros u' Eq. split; [|exact (TQ u' Eq)]. pose proof (gen_ok R T wl HP HT HG HW rd u0 (proj1 O0)) as SF. fold R in Q. change (SetWordList wl) with wst in SF. rewrite <- Q, Eq in SF. exact (proj1 SF).
    - injection G1 as <-. exists []. split; [reflexivity|]. split; [intros u' Eq; injection Eq as <-; exact O0|discriminate]. }
  destruct D as (rd & Q & OQ & A). exists rd. split; [|split; [|exact A]].
  - rewrite frame_split. fold u0. change (gen_click (with_rand (g_in i) rd)) with (gen_click (g_in i)). change (rand (with_rand (g_in i) rd)) with rd. rewrite <- Q. subst r. destruct q as [u1|]; [|reflexivity]. cbn [bind]. specialize (OQ _ eq_refl).
    destruct (handlers2_eq u1 OQ) as [-> OH]. destruct (handlers2 u1) as [u2|]; [|reflexivity]. cbn [bind]. specialize (OH _ eq_refl). change (tab_bar (with_rand (g_in i) rd) u2) with (tab_bar (g_in i) u2).
    destruct (tab_bar_ok (g_in i) u2 (proj1 (proj1 OH))) as (u3 & -> & _ & I3). cbn [bind]. rewrite (display_eq u3 I3). reflexivity.
  - intros u' Eq. subst r. destruct q as [u1|]; [|discriminate Eq]. cbn [bind] in Eq. specialize (OQ _ eq_refl). destruct (handlers2_eq u1 OQ) as [E2 OH]. rewrite E2 in Eq. destruct (handlers2 u1) as [u2|]; [|discriminate Eq]. cbn [bind] in Eq. specialize (OH _ eq_refl).
    destruct OH as [[I2 R2] T2]. destruct (tab_bar_ok (g_in i) u2 I2) as (u3 & ET & SO3 & I3). rewrite ET in Eq. cbn [bind] in Eq. destruct (gDisplay E T u3) as [c|]; [|discriminate Eq]. cbn [bind] in Eq. injection Eq as <-.
    split; [split; [exact I3|exact (Rel_sel R T wl u2 u3 SO3 R2)]|]. rewrite SO3. exact T2.
Qed.
Lemma step_edit f s u : exists e, same_event (GEdit f s) e /\ step R T wst u e = Ret (edit f s u).
Proof. destruct f; [exists (EditMnemonic s)|exists (EditPass s)|exists (EditSeed s)|exists (EditRoot s)|exists (EditPath s)|exists (Radio s)]; split; reflexivity. Qed.
Lemma edit_ok f s u : short s -> ok u -> ok (edit f s u).
Proof. intros S [I (A1 & A2 & A3 & A4 & A5 & A6)]. split; [exact I|]. destruct f; repeat split; assumption. Qed.
Lemma run_eq es : forall u r, ok u -> Forall g_ok es -> gRun E T wst u es = Some r -> exists es', Forall2 same_event es es' /\ r = run R T wst u es' /\ (forall u', r = Ret u' -> ok u').
Proof.
  induction es as [|e es IH]; intros u r O F G; cbn [gRun] in G.
  - injection G as <-. exists []. split; [constructor|]. split; [reflexivity|]. intros u' Eq. injection Eq as <-. exact O.
  - inversion F as [|? ? F1 F2]; subst. destruct e as [f s|i]; cbn [gStep] in G.
    + destruct (step_edit f s u) as (e & SE & ST). destruct (IH _ r (edit_ok f s u F1 O) F2 G) as (es' & FS & RE & OK). exists (e :: es'). split; [constructor; assumption|]. split; [|exact OK]. cbn [run]. rewrite ST. exact RE.
    + destruct (gFrame E T wst i u) as [q|] eqn:GF; [|discriminate G]. destruct (frame_eq i u q O F1 GF) as (rd & Q & OK & _). destruct q as [u1|].
      * destruct (IH u1 r (OK _ eq_refl) F2 G) as (es' & FS & RE & OK'). exists (Frame (with_rand (g_in i) rd) :: es'). split; [constructor; [repeat split|exact FS]|]. split; [|exact OK']. cbn [run step]. rewrite <- Q. exact RE.
      * injection G as <-.
        destruct (same_exists es) as (es' & FS). exists (Frame (with_rand (g_in i) rd) :: es'). split; [constructor; [repeat split|exact FS]|]. split; [|discriminate]. cbn [run step]. rewrite <- Q. reflexivity.
Qed.
Lemma ok0 : ok ui0.
Proof. split; [apply init_ok; exact real_prims_ok|]. repeat split; reflexivity. Qed.
Lemma run_ends es : forall u, ok u -> Forall g_ok es -> Forall g_ends es -> exists r, gRun E T wst u es = Some r.
Proof.
  induction es as [|e es IH]; intros u O F N; cbn [gRun]; [eexists; reflexivity|]. inversion F as [|? ? F1 F2]; subst. inversion N as [|? ? N1 N2]; subst. destruct e as [f s|i]; cbn [gStep].
  - apply IH; [apply edit_ok; assumption|assumption|assumption].
  - assert (G : exists q, gFrame E T wst i u = Some q).
    { unfold gFrame. assert (G1 : exists q, gHandlers1 E T wst i u = Some q).
      { unfold gHandlers1. rewrite gPathString_ok. cbv zeta. cbn [g_ok g_ends] in F1, N1. destruct (gen_click (g_in i)); [|eexists; reflexivity]. destruct (N1 eq_refl) as [PR L]. specialize (F1 eq_refl). unfold gOnAutoCreate. cbv zeta. destruct (gen_ends (g_fuel i) (g_src i) wst (fst (Atoi (radio (set_path (derivationStr u) (PathString (derivationStr u)) u))) mod 256) F1 PR L) as (q & ->). eexists; reflexivity. }
      destruct G1 as (q & ->). eexists; reflexivity. }
    destruct G as (q & G). rewrite G. destruct (frame_eq i u q O F1 G) as (rd & _ & OK & _). destruct q as [u1|]; [|eexists; reflexivity]. apply IH; [exact (OK _ eq_refl)|assumption|assumption].
Qed.
End EQ.

(** ** A wallet typed in at the start *)
Section TYPED.
Variables (H : Prims) (T : tables) (wl : list bytes) (i : frame_in) (p sd root : bytes) (kps : list KeyPath) (j : nat) (kp : KeyPath) (L : list bytes).
Hypothesis GC : gen_click i = false.
Hypothesis LC : left_click i = false.
Hypothesis RC : right_click i = false.
Hypothesis TC : tab_clicks i = [j].
Hypothesis RK : RootKeyFromSeed H sd = Ret (Some root, None).
Hypothesis D0 : exists k0, DeriveBIP32Result H T root (B "m") = Ret ([k0], None).
Hypothesis DP : DeriveBIP32Result H T root p = Ret (kps, None).
Hypothesis PN : PathString p <> [].
Hypothesis NJ : nth_error kps j = Some kp.
Hypothesis LB : labels H T kp L.

Lemma path_of_p : path_of p = p.
Proof.
  unfold path_of. destruct (PathIsValid p) eqn:V; [reflexivity|]. exfalso. unfold DeriveBIP32Result in DP. rewrite V in DP. destruct (KeyIsValid H root) as [v|]; cbn [bind] in DP; [|discriminate DP]. destruct (_ || _ || _); discriminate DP.
Qed.
Lemma kps_pos : (0 < length kps)%nat.
Proof. assert (X : nth_error kps j <> None) by congruence. apply nth_error_Some in X. lia. Qed.
Lemma typed_root u : selected u = 0 -> derivationPath u = [] -> seed u = sd -> exists k0, rootFromSeed H T u = Ret (set_rootStr (KeyString H root) (set_tabs [k0] 0 (set_root root u))).
Proof.
  intros S D SD. destruct D0 as (k0 & E0). exists k0. unfold rootFromSeed. rewrite SD, RK. cbn [bind]. unfold onKeyPathChange. change (derivationPath (set_root root u)) with (derivationPath u). rewrite D. change (PathIsValid []) with false. cbv iota. change (bps (set_root root u)) with root. rewrite E0. cbn [bind]. change (selected (set_root root u)) with (selected u). rewrite S. reflexivity.
Qed.
Lemma typed_path u : selected u = 0 -> bps u = root -> derivationField u = p ->
  OnDerivationPathChange H T u = Ret (set_rootStr (KeyString H root) (set_tabs kps 0 (set_path p (Formatted p) u))).
Proof.
  intros S Bu D. unfold OnDerivationPathChange, onKeyPathChange. rewrite D. change (derivationPath (set_path p (Formatted p) u)) with (Formatted p). change (bps (set_path p (Formatted p) u)) with (bps u). rewrite Bu, eff_path, path_of_p, DP. cbn [bind].
  change (selected (set_path p (Formatted p) u)) with (selected u). rewrite S. pose proof kps_pos as KP. assert (0 >=? Z.of_nat (length kps) = false) as -> by lia. change (bps (set_tabs kps 0 (set_path p (Formatted p) u))) with (bps u). rewrite Bu. reflexivity.
Qed.
Lemma typed_end u : tabs u = kps -> selected u = 0 -> (let! u := tab_bar i u in let! c := display H T u in Ret (set_screen c u)) = Ret (set_screen (Some L) (set_tabs kps (Z.of_nat j) u)).
Proof.
  intros TU SU. unfold tab_bar. rewrite LC, RC, TC. cbn [andb]. rewrite TU. pose proof kps_pos as KP. assert ((length kps =? 0)%nat = false) as -> by (apply Nat.eqb_neq; lia).
  cbn [tabs_layout]. rewrite TU. assert (JL : (j < length kps)%nat) by (apply nth_error_Some; congruence). assert ((j <? length kps)%nat = true) as -> by (apply Nat.ltb_lt; exact JL).
  unfold tab_click. rewrite TU, NJ. cbn [bind tabs_layout]. unfold display. cbv zeta. change (selected (set_tabs kps (Z.of_nat j) u)) with (Z.of_nat j). change (tabs (set_tabs kps (Z.of_nat j) u)) with kps.
  assert ((Z.of_nat j <? Z.of_nat (length kps)) = true) as -> by lia. assert ((length kps =? 0)%nat = false) as -> by (apply Nat.eqb_neq; lia). assert ((Z.of_nat j >=? 0) = true) as -> by lia. cbn [andb negb].
  assert ((Z.of_nat j <? 0) = false) as -> by lia. rewrite Nat2Z.id, NJ. destruct LB as (a & AE & LE). rewrite AE. cbn [bind]. rewrite LE. reflexivity.
Qed.
(** In proofs; for examples/ui/one/main.go:76-104, 173-412. *)
Definition typed_ui (m : bytes) : ui := mkUi kps (Z.of_nat j) root m [] sd (KeyString H root) p p (Formatted p) (KeyString H root) m [] sd (B "12") (Some L).
Lemma neq_eqb a b : a <> b -> negb (bytes_eqb a b) = true.
Proof. intros N. destruct (bytes_eqb a b) eqn:Q; [|reflexivity]. apply bytes_eqb_spec in Q. contradiction. Qed.
Lemma eq_eqb a b : a = b -> negb (bytes_eqb a b) = false.
Proof. intros ->. assert (bytes_eqb b b = true) as -> by (apply bytes_eqb_spec; reflexivity). reflexivity. Qed.
Lemma typed_mnemonic m : m <> [] -> fst (DeriveSeedFromMnemonic H (SetWordList wl) m []) = sd ->
  run H T (SetWordList wl) ui0 [EditMnemonic m; EditPath p; Frame i] = Ret (typed_ui m).
Proof.
  intros MN SE. cbn [run step bind]. match goal with |- context [frame H T (SetWordList wl) i ?x] => set (u := x) end.
  assert (F : frame H T (SetWordList wl) i u = Ret (typed_ui m)); [|rewrite F; reflexivity].
  unfold frame, handlers. cbv zeta. rewrite GC. cbn [when bind].
  set (u0 := set_path (derivationStr u) (Formatted (derivationStr u)) u). rewrite (neq_eqb (mnemonicField u0) (mnemonic u0)) by exact MN. cbn [when]. unfold onMnemonicChange.
  set (u1 := seedFromMnemonic H (SetWordList wl) (set_mnemonic (mnemonicField u0) u0)). destruct (typed_root u1 eq_refl eq_refl) as (k0 & RF); [exact SE|]. rewrite RF. cbn [bind]. set (u2 := set_rootStr _ _).
  rewrite (eq_eqb (passField u2) (passPhrase u2)) by reflexivity. cbn [when bind]. rewrite (eq_eqb (seedField u2) (seed u2)) by reflexivity. cbn [when bind]. rewrite (eq_eqb (rootKeyStr u2) (rootField u2)) by reflexivity. cbn [when bind].
  rewrite (neq_eqb (PathString (derivationField u2)) (PathString (derivationStr u2))) by exact PN. cbn [when]. rewrite (typed_path u2 eq_refl eq_refl eq_refl). cbn [bind]. rewrite typed_end by reflexivity.
  subst u2 u1 u0 u. unfold typed_ui, seedFromMnemonic. cbn. rewrite SE. reflexivity.
Qed.
Lemma typed_seed : sd <> [] -> run H T (SetWordList wl) ui0 [EditSeed sd; EditPath p; Frame i] = Ret (typed_ui []).
Proof.
  intros SN. cbn [run step bind]. match goal with |- context [frame H T (SetWordList wl) i ?x] => set (u := x) end.
  assert (F : frame H T (SetWordList wl) i u = Ret (typed_ui [])); [|rewrite F; reflexivity].
  unfold frame, handlers. cbv zeta. rewrite GC. cbn [when bind].
  set (u0 := set_path (derivationStr u) (Formatted (derivationStr u)) u). rewrite (eq_eqb (mnemonicField u0) (mnemonic u0)) by reflexivity. cbn [when bind]. rewrite (eq_eqb (passField u0) (passPhrase u0)) by reflexivity. cbn [when bind].
  rewrite (neq_eqb (seedField u0) (seed u0)) by exact SN. cbn [when]. unfold onSeedChange.
  set (u1 := set_mnemonic [] _). destruct (typed_root u1 eq_refl eq_refl eq_refl) as (k0 & RF). rewrite RF. cbn [bind]. set (u2 := set_rootStr _ _).
  rewrite (eq_eqb (rootKeyStr u2) (rootField u2)) by reflexivity. cbn [when bind].
  rewrite (neq_eqb (PathString (derivationField u2)) (PathString (derivationStr u2))) by exact PN. cbn [when]. rewrite (typed_path u2 eq_refl eq_refl eq_refl). cbn [bind]. rewrite typed_end by reflexivity. reflexivity.
Qed.
End TYPED.
Lemma same_two (mk : bytes -> event) f a p i es : (forall e, same_event (GEdit f a) e -> e = mk a) -> Forall2 same_event [GEdit f a; GEdit FPath p; GFrame i] es ->
  exists i', same_clicks (g_in i) i' /\ es = [mk a; EditPath p; Frame i'].
Proof.
  intros M FS. inversion FS as [|? e1 ? r1 S1 FS1]; subst. inversion FS1 as [|? e2 ? r2 S2 FS2]; subst. inversion FS2 as [|? e3 ? r3 S3 FS3]; subst. inversion FS3; subst.
  apply M in S1. subst e1. destruct e2; try (destruct S2; fail). cbn [same_event] in S2. subst. destruct e3 as [| | | | | |i']; try (destruct S3; fail). exists i'. split; [exact S3|reflexivity].
Qed.
Lemma run_typed_mnemonic H T wl i p sd root kps j kp L k0 m es : gen_click (g_in i) = false -> left_click (g_in i) = false -> right_click (g_in i) = false -> tab_clicks (g_in i) = [j] ->
  RootKeyFromSeed H sd = Ret (Some root, None) -> DeriveBIP32Result H T root (B "m") = Ret ([k0], None) -> DeriveBIP32Result H T root p = Ret (kps, None) -> PathString p <> [] -> nth_error kps j = Some kp -> labels H T kp L ->
  m <> [] -> DeriveSeedFromMnemonic H (SetWordList wl) m [] = (sd, None) -> Forall2 same_event [GEdit FMnemonic m; GEdit FPath p; GFrame i] es ->
  run H T (SetWordList wl) ui0 es = Ret (typed_ui H p sd root kps j L m).
Proof.
  intros GC LC RC TC R Dm D PN NK LB MN S FS. destruct (same_two EditMnemonic FMnemonic m p i es) as (i' & (G1 & G2 & G3 & G4) & ->); [intros e SE; destruct e; try (destruct SE; fail); cbn [same_event] in SE; subst; reflexivity|exact FS|].
  apply typed_mnemonic with kp; try congruence; try (exists k0; exact Dm); try exact LB; rewrite S; reflexivity.
Qed.
Lemma run_typed_seed H T wl i p sd root kps j kp L k0 es : gen_click (g_in i) = false -> left_click (g_in i) = false -> right_click (g_in i) = false -> tab_clicks (g_in i) = [j] ->
  RootKeyFromSeed H sd = Ret (Some root, None) -> DeriveBIP32Result H T root (B "m") = Ret ([k0], None) -> DeriveBIP32Result H T root p = Ret (kps, None) -> PathString p <> [] -> nth_error kps j = Some kp -> labels H T kp L ->
  sd <> [] -> Forall2 same_event [GEdit FSeed sd; GEdit FPath p; GFrame i] es ->
  run H T (SetWordList wl) ui0 es = Ret (typed_ui H p sd root kps j L []).
Proof.
  intros GC LC RC TC R Dm D PN NK LB SN FS. destruct (same_two EditSeed FSeed sd p i es) as (i' & (G1 & G2 & G3 & G4) & ->); [intros e SE; destruct e; try (destruct SE; fail); cbn [same_event] in SE; subst; reflexivity|exact FS|].
  apply typed_seed with kp; try congruence; try (exists k0; exact Dm); exact LB.
Qed.
