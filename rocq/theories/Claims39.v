(** Claims39.v - the property statements of Props39.v with their proofs. *)
From Verif Require Import Base BaseFacts GoStr GoStrFacts Prims Hash HashFacts Bip39 SpecBip39 Bip39Facts Bip39Facts2 Bip39Sys Bip39SysFacts UtilMnemonic UtilMnemonicFacts WordLists WlEnglish WlKorean WlSpanish Abandon AllLists.
From Coq Require Import ZifyBool ZifyNat ZifyN.

Lemma hex_pair_ne a b : a <> b -> (HexEncode a, @None err) <> (HexEncode b, None).
Proof. intros N E. injection E as E. apply N, HexEncode_inj, E. Qed.
Lemma consistent_ex l1 l2 : consistent (aview (mkA [l1; l2] 0 (wordMap (SetWordList l1)))).
Proof. reflexivity. Qed.
Lemma gen12 H st : GenerateMnemonic H st (repeat x00 16) 12 = NewMnemonic H st zero16.
Proof.
  change (GenerateMnemonic H st (repeat x00 16) 12) with
    (match NewMnemonic H st zero16 with
     | Ret (m, None) => Ret (m, None) | Ret (_, Some e) => Ret ([], Some e) | Panic => Panic end).
  unfold NewMnemonic. destruct (validateEntropyBitSize _); [reflexivity|]. destruct (NewMnemonic_loop _ _ _ _); reflexivity.
Qed.

Lemma C01_roundtrip_l : forall H wl e,
  prims_ok H -> good_list wl -> text_words wl -> entropy_size_ok e ->
  exists m, NewMnemonic H (SetWordList wl) e = Ret (m, None) /\
            EntropyFromMnemonic H (SetWordList wl) m = (e, None).
Proof.
intros H wl e HP HG HT He.
  exists (Join (B " ") (bip39_words H wl e)).
  assert (E : NewMnemonic H (SetWordList wl) e = Ret (Join (B " ") (bip39_words H wl e), None)).
  { apply NewMnemonic_ok; [exact HP| |exact He]. destruct HG as [HL _]. cbn [SetWordList wordList]. lia. }
  split; [exact E|]. exact (roundtrip _ _ _ _ HP HG HT He E).
Qed.

Lemma C01_roundtrip_bundled_l : forall t c e, In (t, c) bundled -> entropy_size_ok e ->
  exists m, NewMnemonic RealPrims (SetWordList (wl_words t)) e = Ret (m, None) /\
            EntropyFromMnemonic RealPrims (SetWordList (wl_words t)) m = (e, None).
Proof.
exact bundled_roundtrip.
Qed.

Lemma C01_roundtrip_ex_l : prims_ok RealPrims /\ good_list english /\ text_words english /\ entropy_size_ok zero16 /\
  In (english_text, english_crc) bundled.
Proof.
split; [exact real_prims_ok|]. split; [exact (proj1 english_list)|]. split; [exact (proj2 english_list)|].
  split; [left; reflexivity|]. right. right. right. left. exact eq_refl.
Qed.

Lemma C02_NewMnemonic_l : forall H st e, prims_ok H -> (2048 <= length (GetWordList st))%nat ->
  (entropy_size_ok e ->
     NewMnemonic H st e = Ret (Join (B " ") (bip39_words H (GetWordList st) e), None) /\
     length (bip39_words H (GetWordList st) e) = (length e * 3 / 4)%nat) /\
  (~ entropy_size_ok e -> NewMnemonic H st e = Ret ([], Some ErrEntropyLengthInvalid)).
Proof.
intros H st e HP HL. split.
  - intros He. split; [apply NewMnemonic_ok; assumption|]. rewrite bip39_words_length by assumption.
    unfold entropy_size_ok in He. simpl in He.
    destruct He as [<-|[<-|[<-|[<-|[<-|[]]]]]]; reflexivity.
  - apply NewMnemonic_bad.
Qed.

Lemma C02_NewMnemonic_ex_l : (2048 <= length (GetWordList (SetWordList english)))%nat /\ entropy_size_ok zero16 /\ ~ entropy_size_ok [x00].
Proof.
split; [destruct english_list as [[L _] _]; cbn [SetWordList GetWordList wordList]; lia|].
  split; [left; reflexivity|]. intros [E|[E|[E|[E|[E|[]]]]]]; discriminate E.
Qed.

Lemma C03_accepts_exactly_l : forall H wl m, prims_ok H -> good_list wl ->
  (forall e, EntropyFromMnemonic H (SetWordList wl) m = (e, None) <->
             (entropy_size_ok e /\ Fields m = bip39_words H wl e)) /\
  (IsMnemonicValid H (SetWordList wl) m = true <->
     exists e, entropy_size_ok e /\ Fields m = bip39_words H wl e).
Proof.
intros H wl m HP HG.
  assert (A : forall e, EntropyFromMnemonic H (SetWordList wl) m = (e, None) <->
             (entropy_size_ok e /\ Fields m = bip39_words H wl e))
    by (intros e; apply EntropyFromMnemonic_iff; assumption).
  split; [exact A|]. unfold IsMnemonicValid. split.
  - intros V. destruct (EntropyFromMnemonic H (SetWordList wl) m) as [e [x|]] eqn:E; [discriminate|].
    exists e. apply A. reflexivity.
  - intros (e & E). apply A in E. rewrite E. reflexivity.
Qed.

Lemma C03_same_entropy_same_words_l : forall H wl m m' e, prims_ok H -> good_list wl ->
  EntropyFromMnemonic H (SetWordList wl) m = (e, None) ->
  EntropyFromMnemonic H (SetWordList wl) m' = (e, None) -> Fields m = Fields m'.
Proof.
intros H wl m m' e HP HG E1 E2. apply EntropyFromMnemonic_iff in E1 as [_ E1]; [|assumption|assumption].
  apply EntropyFromMnemonic_iff in E2 as [_ E2]; [|assumption|assumption]. congruence.
Qed.

Lemma C03_accepts_exactly_ex_l : EntropyFromMnemonic RealPrims (SetWordList english) abandon_spaces = (zero16, None) /\
  EntropyFromMnemonic RealPrims (SetWordList english) abandon_tabs = (zero16, None).
Proof.
exact (conj (proj1 abandon_checks) (proj1 (proj2 abandon_checks))).
Qed.

Lemma C04_last_words_l : forall H wl p n, prims_ok H -> good_list wl -> text_words wl ->
  In n [12; 15; 18; 21; 24]%nat -> length p = (n - 1)%nat -> Forall (fun w => In w wl) p ->
  exists L, NoDup L /\ length L = (2 ^ (11 - n / 3))%nat /\
    forall w, In w L <-> (In w wl /\ IsMnemonicValid H (SetWordList wl) (Join (B " ") (p ++ [w])) = true).
Proof.
exact last_word_count.
Qed.

Lemma C04_last_words_ex_l : Forall (fun w => In w english) (repeat (nth 0 english []) 11) /\ length (repeat (nth 0 english []) 11) = (12 - 1)%nat.
Proof.
split; [|reflexivity]. apply Forall_forall. intros w Hw. apply repeat_spec in Hw as ->. apply nth_In.
  destruct english_list as [[L _] _]. rewrite L. lia.
Qed.

Lemma C05_raw_l : forall H st m, MnemonicToByteArray H st m true = EntropyFromMnemonic H st m.
Proof.
exact byte_array_raw_eq.
Qed.

Lemma C05_single_spaces_l : forall H wl e, prims_ok H -> good_list wl -> text_words wl -> entropy_size_ok e ->
  exists arr, MnemonicToByteArray H (SetWordList wl) (Join (B " ") (bip39_words H wl e)) false = (arr, None) /\
    length arr = S (length e) /\ bits_of arr = repeat false (8 - length e / 4) ++ bip39_bits H e.
Proof.
intros H wl e HP HG HT He. exact (byte_array_spaces H wl e _ HP HG HT He eq_refl).
Qed.

Lemma C05_any_spacing_l : forall H wl m e, prims_ok H -> good_list wl ->
  EntropyFromMnemonic H (SetWordList wl) m = (e, None) ->
  exists arr, MnemonicToByteArray H (SetWordList wl) m false = (arr, None) /\
    be_Z arr = bits_val (bip39_bits H e) /\
    length arr = Nat.max (ba_size (Z.of_nat (length (Split x20 m)))) (nbytes (bits_val (bip39_bits H e))).
Proof.
exact byte_array_any.
Qed.

Lemma C05_any_spacing_refuted_l : exists m e arr, EntropyFromMnemonic RealPrims (SetWordList english) m = (e, None) /\
  MnemonicToByteArray RealPrims (SetWordList english) m false = (arr, None) /\
  length e = 16%nat /\ length arr = 1%nat.
Proof.
exists abandon_tabs, zero16, [x03]. split; [exact (proj1 (proj2 abandon_checks))|].
  split; [exact (proj2 (proj2 (proj2 abandon_checks)))|]. split; reflexivity.
Qed.

Lemma C05_any_spacing_ex_l : prims_ok RealPrims /\ good_list english /\ text_words english /\ entropy_size_ok zero16 /\
  EntropyFromMnemonic RealPrims (SetWordList english) abandon_tabs = (zero16, None).
Proof.
split; [exact real_prims_ok|]. split; [exact (proj1 english_list)|]. split; [exact (proj2 english_list)|].
  split; [left; reflexivity|]. exact (proj1 (proj2 abandon_checks)).
Qed.

Lemma C06_error_classes_l : forall H wl m, prims_ok H -> good_list wl ->
  let ws := Fields m in
  let r := EntropyFromMnemonic H (SetWordList wl) m in
  (~ In (length ws) [12; 15; 18; 21; 24]%nat -> r = ([], Some ErrInvalidMnemonic)) /\
  (In (length ws) [12; 15; 18; 21; 24]%nat -> forall p w q, ws = p ++ w :: q ->
     Forall (fun v => In v wl) p -> ~ In w wl -> r = ([], Some (ErrWord w))) /\
  (In (length ws) [12; 15; 18; 21; 24]%nat -> forall is, sentence_indices wl ws is ->
     let k := (length ws / 3)%nat in
     let bits := flat_map bits11 is in
     exists e, bits_of e = firstn (32 * k) bits /\
       (firstn k (bits_of (p_sha256 H e)) = skipn (32 * k) bits -> r = (e, None)) /\
       (firstn k (bits_of (p_sha256 H e)) <> skipn (32 * k) bits -> r = ([], Some ErrChecksumIncorrect))) /\
  ((exists p w q, ws = p ++ w :: q /\ Forall (fun v => In v wl) p /\ ~ In w wl) \/ exists is, sentence_indices wl ws is).
Proof.
exact error_classes.
Qed.

Lemma C06_error_classes_ex_l : ~ In (length (Fields (B "abandon"))) [12; 15; 18; 21; 24]%nat /\
  (In (length (Fields abandon_tabs)) [12; 15; 18; 21; 24]%nat /\ exists is, sentence_indices english (Fields abandon_tabs) is) /\
  (In (length (repeat abaco_nfc 12)) [12; 15; 18; 21; 24]%nat /\ Fields (Join (B " ") (repeat abaco_nfc 12)) = [] ++ abaco_nfc :: repeat abaco_nfc 11).
Proof.
split; [intros [E|[E|[E|[E|[E|[]]]]]]; discriminate E|]. split; [split|split].
  - rewrite (proj1 (proj2 abandon_fields)). left. reflexivity.
  - destruct (error_classes RealPrims english abandon_tabs real_prims_ok (proj1 english_list)) as (_ & A & _ & C).
    destruct C as [(p & w & q & E & F & N)|C]; [exfalso|exact C].
    assert (L : In (length (Fields abandon_tabs)) [12; 15; 18; 21; 24]%nat) by (rewrite (proj1 (proj2 abandon_fields)); left; reflexivity).
    pose proof (A L p w q E F N) as K. rewrite (proj1 (proj2 abandon_checks)) in K. discriminate K.
  - left. reflexivity.
  - reflexivity.
Qed.

Lemma C07_validity_ignores_spacing_l : forall H st ws m m', text_words ws -> spaced ws m -> spaced ws m' ->
  EntropyFromMnemonic H st m = EntropyFromMnemonic H st m' /\
  IsMnemonicValid H st m = IsMnemonicValid H st m'.
Proof.
exact respacing.
Qed.

Lemma C07_only_the_words_l : forall H st m, EntropyFromMnemonic H st (Join (B " ") (Fields m)) = EntropyFromMnemonic H st m.
Proof.
exact entropy_normalised.
Qed.

Lemma C07_seed_is_of_the_text_l : forall H st m m' pw, Fields m = Fields m' -> IsMnemonicValid H st m = true ->
  IsMnemonicValid H st m' = true /\
  (DeriveSeedFromMnemonic H st m pw = DeriveSeedFromMnemonic H st m' pw <->
   p_pbkdf2 H m (B "mnemonic" ++ pw) = p_pbkdf2 H m' (B "mnemonic" ++ pw)).
Proof.
intros H st m m' pw F V. unfold IsMnemonicValid, DeriveSeedFromMnemonic in *.
  rewrite <- (entropy_of_fields H st m m' F).
  destruct (EntropyFromMnemonic H st m) as [e [x|]]; [discriminate|]. cbn [snd]. split; [reflexivity|].
  unfold NewSeed. split; intros E; [injection E as E; apply HexEncode_inj; exact E|rewrite E; reflexivity].
Qed.

Lemma C07_seed_spacing_refuted_l : exists H m m' pw, prims_ok H /\ Fields m = Fields m' /\
  IsMnemonicValid H (SetWordList english) m = true /\
  IsMnemonicValid H (SetWordList english) m' = true /\
  DeriveSeedFromMnemonic H (SetWordList english) m pw <>
  DeriveSeedFromMnemonic H (SetWordList english) m' pw.
Proof.
exists EchoPrims, abandon_spaces, abandon_two_spaces, (B "TREZOR").
  destruct abandon_checks as (E1 & _ & E3 & _).
  split; [exact echo_prims_ok|].
  split; [rewrite (proj1 abandon_fields), (proj2 (proj2 abandon_fields)); reflexivity|].
  unfold IsMnemonicValid, DeriveSeedFromMnemonic.
  rewrite !(entropy_echo (SetWordList english)), E1, E3. cbn [snd].
  split; [reflexivity|]. split; [reflexivity|]. apply hex_pair_ne. intros E. discriminate E.
Qed.

Lemma C07_validity_ignores_spacing_ex_l : text_words [B "a"; B "b"] /\ spaced [B "a"; B "b"] (B "a b") /\
  spaced [B "a"; B "b"] (B " a" ++ [xe3; x80; x80; x09] ++ B "b").
Proof.
split; [repeat constructor|]. split.
  - exact (sp_cons [] (B "a") [x20] [B "b"] (B "b") bl_nil ltac:(simpl; tauto) (sp_last [] (B "b") bl_nil)).
  - refine (sp_cons [x20] (B "a") [xe3; x80; x80] [B "b"] ([x09] ++ B "b") _ ltac:(simpl; tauto) (sp_last [x09] (B "b") _)).
    + exact (bl_cons [x20] [] ltac:(simpl; tauto) bl_nil).
    + exact (bl_cons [x09] [] ltac:(simpl; tauto) bl_nil).
Qed.

Lemma C08_seed_gating_l : forall H st m pw, prims_ok H ->
  length (NewSeed H m pw) = 64%nat /\ NewSeed H m pw = p_pbkdf2 H m (B "mnemonic" ++ pw) /\
  (IsMnemonicValid H st m = true ->
     NewSeedWithErrorChecking H st m pw = (NewSeed H m pw, None) /\
     exists h, DeriveSeedFromMnemonic H st m pw = (h, None) /\ length h = 128%nat /\ h = HexEncode (NewSeed H m pw)) /\
  (IsMnemonicValid H st m = false ->
     exists x, snd (EntropyFromMnemonic H st m) = Some x /\
       NewSeedWithErrorChecking H st m pw = ([], Some x) /\ DeriveSeedFromMnemonic H st m pw = ([], Some x)).
Proof.
intros H st m pw HP. destruct (seed_gating H st m pw HP) as (A & B & C).
  split; [exact A|]. split; [reflexivity|]. split; [exact B|exact C].
Qed.

Lemma C08_seed_gating_ex_l : IsMnemonicValid RealPrims (SetWordList english) abandon_spaces = true /\
  IsMnemonicValid RealPrims (SetWordList english) (B "abandon") = false.
Proof.
split; [|reflexivity]. unfold IsMnemonicValid. rewrite (proj1 abandon_checks). reflexivity.
Qed.

Lemma C09_lookup_l : forall st0 history l w,
  let st := fold_left (fun _ x => SetWordList x) (history ++ [l]) st0 in
  GetWordList st = l /\
  (forall i, GetWordIndex st w = (i, true) <->
     (0 <= i /\ nth_error l (Z.to_nat i) = Some w /\ forall j, nth_error l j = Some w -> (j <= Z.to_nat i)%nat)) /\
  (GetWordIndex st w = (0, false) <-> ~ In w l) /\
  (NoDup l -> forall i, nth_error l i = Some w -> GetWordIndex st w = (Z.of_nat i, true)).
Proof.
intros st0 hist l w st. unfold st. rewrite fold_set. split; [reflexivity|].
  split; [intros i; apply GetWordIndex_set|]. split; [apply GetWordIndex_none|].
  intros ND i Hi. apply GetWordIndex_set. rewrite Nat2Z.id. split; [lia|]. split; [exact Hi|].
  intros j Hj. assert (j = i); [|lia]. apply (proj1 (NoDup_nth_error l) ND).
  - apply nth_error_Some. rewrite Hj. discriminate.
  - congruence.
Qed.

Lemma C09_lookup_ex_l : NoDup english /\ nth_error english 3 = Some (B "about") /\ ~ In abaco_nfc spanish /\
  fold_left (fun _ x => SetWordList x) ([spanish] ++ [english]) (SetWordList []) = SetWordList english.
Proof.
split; [exact (proj2 (proj1 english_list))|]. split; [rewrite english_eq; reflexivity|]. split; [exact (proj2 abaco)|].
  generalize english, spanish. intros a b. reflexivity.
Qed.

Lemma C10_consistent_without_writes_l : forall s ops, consistent (aview s) -> quiet s ops -> consistent (aview (fold_left astep ops s)).
Proof.
exact alias_quiet.
Qed.

Lemma C10_aliasing_refuted_l : forall H wl w, prims_ok H -> good_list wl -> text_words wl -> Fields w = [w] -> ~ In w wl ->
  exists e m, entropy_size_ok e /\
    let s := fold_left astep [OSet 0; OWrite 0 0 w] (mkA [wl] 0 []) in
    NewMnemonic H (aview s) e = Ret (m, None) /\
    EntropyFromMnemonic H (aview s) m = ([], Some (ErrWord w)) /\
    EntropyFromMnemonic H (SetWordList wl) m = ([], Some (ErrWord w)).
Proof.
exact alias_breaks.
Qed.

Lemma C10_aliasing_ex_l : Fields abaco_nfc = [abaco_nfc] /\ ~ In abaco_nfc spanish /\
  consistent (aview (mkA [english; spanish] 0 (wordMap (SetWordList english)))) /\
  quiet (mkA [english; spanish] 0 (wordMap (SetWordList english))) [OSet 1; OWrite 0 0 []].
Proof.
split; [reflexivity|]. split; [exact (proj2 abaco)|]. split; [exact (consistent_ex english spanish)|].
  cbn [quiet astep cur]. split; [exact I|]. split; [discriminate|exact I].
Qed.

Lemma C11_serial_readers_l : forall H old l (t : nat -> nat) e m,
  ((forall n, t n = 0%nat) ->
     NewMnemonic_at H (fun n => state_at old l (t n)) e = NewMnemonic H old e /\
     EntropyFromMnemonic_at H (fun n => state_at old l (t n)) m = EntropyFromMnemonic H old m) /\
  ((forall n, (length l + 2 <= t n)%nat) ->
     NewMnemonic_at H (fun n => state_at old l (t n)) e = NewMnemonic H (SetWordList l) e /\
     EntropyFromMnemonic_at H (fun n => state_at old l (t n)) m = EntropyFromMnemonic H (SetWordList l) m).
Proof.
exact reader_serial.
Qed.

Lemma C11_concurrent_words_l : forall H old l (t : nat -> nat) e, prims_ok H -> length (wordList old) = 2048%nat -> length l = 2048%nat ->
  entropy_size_ok e ->
  exists ws, NewMnemonic_at H (fun n => state_at old l (t n)) e = Ret (Join (B " ") ws, None) /\
    Forall2 (fun w i => w = nth (Z.to_nat i) (wordList old) [] \/ w = nth (Z.to_nat i) l []) ws (bip39_indices H e).
Proof.
exact reader_words.
Qed.

Lemma C11_concurrent_reader_refuted_l : forall H wl e, prims_ok H -> good_list wl -> text_words wl -> entropy_size_ok e ->
  let m := Join (B " ") (bip39_words H wl e) in
  EntropyFromMnemonic H (SetWordList wl) m = (e, None) /\
  exists w, EntropyFromMnemonic_at H (fun _ => state_at (SetWordList wl) wl 2) m = ([], Some (ErrWord w)) /\ In w wl.
Proof.
exact reader_race.
Qed.

Lemma C11_mixed_sentence_refuted_l : forall H l0 l1, prims_ok H -> good_list l0 -> text_words l0 -> good_list l1 -> text_words l1 ->
  ~ In (nth 0 l0 []) l1 -> Forall (fun w => ~ In w l0) l1 ->
  exists t e m, (forall n, (t n <= t (S n))%nat) /\ entropy_size_ok e /\
    NewMnemonic_at H (fun n => state_at (SetWordList l0) l1 (t n)) e = Ret (m, None) /\
    IsMnemonicValid H (SetWordList l0) m = false /\ IsMnemonicValid H (SetWordList l1) m = false.
Proof.
exact reader_mixed.
Qed.

Lemma C11_mixed_accepted_refuted_l : forall H l0 l1 e c, prims_ok H -> good_list l0 -> text_words l0 -> good_list l1 -> text_words l1 ->
  (forall w, In w l0 -> ~ In w l1) -> entropy_size_ok e -> (0 < c < length (bip39_indices H e))%nat ->
  let m := Join (B " ") (firstn c (bip39_words H l0 e) ++ skipn c (bip39_words H l1 e)) in
  exists t, (forall n, (t n <= t (S n))%nat) /\
    EntropyFromMnemonic_at H (fun n => state_at (SetWordList l0) l1 (t n)) m = (e, None) /\
    IsMnemonicValid H (SetWordList l0) m = false /\ IsMnemonicValid H (SetWordList l1) m = false.
Proof.
intros H l0 l1 e c HP G0 W0 G1 W1 D He Hc m.
  exists (fun n => if (n <? c)%nat then 0%nat else (length l1 + 2)%nat). split.
  - intros n. destruct (Nat.ltb_spec n c); destruct (Nat.ltb_spec (S n) c); lia.
  - split; [apply reader_accepts_mixed; assumption|]. apply mixed_words_invalid; assumption.
Qed.

Lemma C11_mixed_accepted_ex_l : (forall w, In w korean -> ~ In w english) /\ (0 < 6 < length (bip39_indices RealPrims zero16))%nat.
Proof.
split; [exact (proj1 (Forall_forall _ _) kor_eng)|].
  replace (length (bip39_indices RealPrims zero16)) with 12%nat; [lia|].
  rewrite <- (map_length (fun i => nth (Z.to_nat i) english []) (bip39_indices RealPrims zero16)).
  symmetry. apply (bip39_words_length RealPrims english zero16); [exact real_prims_ok|left; reflexivity].
Qed.

Lemma C11_mixed_sentence_ex_l : ~ In (nth 0 english []) korean /\ Forall (fun w => ~ In w english) korean.
Proof.
exact (conj eng_kor kor_eng).
Qed.

Lemma C12_NewEntropy_l : forall rd n,
  (In n [128; 160; 192; 224; 256] ->
     exists e, NewEntropy rd n = (e, None) /\ 8 * Z.of_nat (length e) = n /\
       (forall i, (i < length e)%nat ->
          nth_error e i = match nth_error rd i with Some b => Some b | None => Some x00 end) /\
       ((length e <= length rd)%nat -> e = firstn (length e) rd)) /\
  (~ In n [128; 160; 192; 224; 256] -> NewEntropy rd n = ([], Some ErrEntropyLengthInvalid)).
Proof.
exact NewEntropy_spec.
Qed.

Lemma C12_random_failure_reported_refuted_l : forall n, In n [128; 160; 192; 224; 256] -> exists e, NewEntropy [] n = (e, None) /\ e = repeat x00 (Z.to_nat (n / 8)).
Proof.
intros n Hn. simpl in Hn. destruct Hn as [<-|[<-|[<-|[<-|[<-|[]]]]]]; eexists; split; reflexivity.
Qed.

Lemma C12_NewEntropy_ex_l : In 128 [128; 160; 192; 224; 256] /\ ~ In 129 [128; 160; 192; 224; 256] /\ NewEntropy (repeat x07 20) 128 = (repeat x07 16, None).
Proof.
split; [left; reflexivity|]. split; [intros [E|[E|[E|[E|[E|[]]]]]]; discriminate E|reflexivity].
Qed.

Lemma C13_GenerateMnemonic_l : forall H wl rd n, prims_ok H -> good_list wl -> text_words wl ->
  (In n [12; 15; 18; 21; 24] ->
     exists e m, GenerateMnemonic H (SetWordList wl) rd n = Ret (m, None) /\
       Z.of_nat (length (Fields m)) = n /\ Z.of_nat (length e) = n * 4 / 3 /\
       EntropyFromMnemonic H (SetWordList wl) m = (e, None) /\ IsMnemonicValid H (SetWordList wl) m = true /\
       ((length e <= length rd)%nat -> e = firstn (length e) rd)) /\
  (~ In n [12; 15; 18; 21; 24] -> GenerateMnemonic H (SetWordList wl) rd n = Ret ([], Some ErrInvalidMnemonicWordsCount)).
Proof.
intros H wl rd n HP HG HT. split; [apply GenerateMnemonic_ok; assumption|apply GenerateMnemonic_bad].
Qed.

Lemma C13_GenerateMnemonic_ex_l : In 12 [12; 15; 18; 21; 24] /\ ~ In 13 [12; 15; 18; 21; 24] /\
  GenerateMnemonic RealPrims (SetWordList english) (repeat x00 16) 12 = Ret (abandon_spaces, None).
Proof.
split; [left; reflexivity|]. split; [intros [E|[E|[E|[E|[E|[]]]]]]; discriminate E|].
  rewrite gen12, NewMnemonic_ok; [|exact real_prims_ok|destruct english_list as [[L _] _]; cbn [SetWordList wordList]; lia|left; reflexivity].
  pose proof (proj1 (EntropyFromMnemonic_iff RealPrims english abandon_spaces zero16 real_prims_ok (proj1 english_list)) (proj1 abandon_checks)) as [_ E].
  cbn [SetWordList wordList]. rewrite <- E, (proj1 abandon_fields). reflexivity.
Qed.

Lemma C14_bundled_lists_l : forall t c, In (t, c) bundled ->
  wl_init t c = Ret tt /\ length (wl_words t) = 2048%nat /\ NoDup (wl_words t) /\
  Forall (fun w => w <> [] /\ Fields w = [w]) (wl_words t).
Proof.
exact bundled_good.
Qed.

Lemma C14_bundled_lists_ex_l : length bundled = 10%nat.
Proof.
reflexivity.
Qed.

Lemma C58_composed_spelling_refuted_l : In abaco_nfd spanish /\ ~ In abaco_nfc spanish /\
  forall H m p q, prims_ok H -> Fields m = p ++ abaco_nfc :: q -> Forall (fun v => In v spanish) p ->
    In (length (Fields m)) [12; 15; 18; 21; 24]%nat ->
    EntropyFromMnemonic H (SetWordList spanish) m = ([], Some (ErrWord abaco_nfc)).
Proof.
split; [exact (proj1 abaco)|]. split; [exact (proj2 abaco)|]. intros H m p q HP E F L.
  exact (proj1 (proj2 (error_classes H spanish m HP (proj1 spanish_list))) L p abaco_nfc q E F (proj2 abaco)).
Qed.

Lemma C58_composed_spelling_ex_l : Fields (Join (B " ") (repeat abaco_nfc 12)) = [] ++ abaco_nfc :: repeat abaco_nfc 11 /\ length (repeat abaco_nfc 12) = 12%nat.
Proof.
split; reflexivity.
Qed.

Lemma C58_passphrase_spelling_refuted_l : exists H m, prims_ok H /\ IsMnemonicValid H (SetWordList english) m = true /\
  DeriveSeedFromMnemonic H (SetWordList english) m pass_nfc <>
  DeriveSeedFromMnemonic H (SetWordList english) m pass_nfd.
Proof.
exists EchoPrims, abandon_spaces.
  split; [exact echo_prims_ok|]. unfold IsMnemonicValid, DeriveSeedFromMnemonic.
  rewrite (entropy_echo (SetWordList english)), (proj1 abandon_checks). cbn [snd].
  split; [reflexivity|]. apply hex_pair_ne. intros E. discriminate E.
Qed.

Lemma C59_writers_invariant_l : forall l0 args sched,
  let s := srun (SetWordList l0, map P0 args) sched in
  In (GetWordList (fst s)) (l0 :: args) /\
  (forall w i, GetWordIndex (fst s) w = (i, true) ->
     exists l, In l (l0 :: args) /\ 0 <= i /\ nth_error l (Z.to_nat i) = Some w).
Proof.
intros l0 args sched s. destruct (writers_invariant l0 args sched) as [A B]. split; [exact A|].
  intros w i E. apply B. unfold GetWordIndex in E. fold s. destruct (map_get (wordMap (fst s)) w) as [j|]; [|discriminate].
  injection E as <-. reflexivity.
Qed.

Lemma C59_single_writer_l : forall st l, srun (st, [P0 l]) (repeat 0%nat (length l + 4)) = (SetWordList l, [PDone]).
Proof.
exact writer_alone.
Qed.

Lemma C59_two_writers_refuted_l : forall H l0 l1 l2 e, prims_ok H -> good_list l1 -> text_words l1 -> good_list l2 -> text_words l2 ->
  (forall w, In w l1 -> ~ In w l2) -> entropy_size_ok e ->
  let s := srun (SetWordList l0, [P0 l1; P0 l2]) (two_sched l1 l2) in
  snd s = [PDone; PDone] /\
  GetWordList (fst s) = l2 /\
  (forall w, In w l1 -> snd (GetWordIndex (fst s) w) = true) /\
  EntropyFromMnemonic H (fst s) (Join (B " ") (bip39_words H l1 e)) = (e, None) /\
  NewMnemonic H (fst s) e = Ret (Join (B " ") (bip39_words H l2 e), None).
Proof.
exact writers_race.
Qed.

Lemma C59_two_writers_ex_l : good_list korean /\ text_words korean /\ (forall w, In w korean -> ~ In w english).
Proof.
split; [exact (proj1 (proj2 korean_good))|]. split; [exact (proj2 (proj2 korean_good))|].
  exact (proj1 (Forall_forall _ _) kor_eng).
Qed.
