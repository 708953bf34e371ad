(** Props39.v - properties of the BIP-39 package (C01-C14, C58, C59).
    Every theorem is closed by the lemma of the same name in Claims39.v; an Example beside it shows that its
    hypotheses can be met. *)
From Verif Require Import Base BaseFacts GoStr GoStrFacts Prims Hash HashFacts Bip39 SpecBip39 Bip39Facts Bip39Facts2 Bip39Sys Bip39SysFacts UtilMnemonic UtilMnemonicFacts WordLists WlEnglish WlKorean WlSpanish Abandon AllLists Claims39.

(** C01. Round trip. *)

Theorem C01_roundtrip : forall H wl e,
  prims_ok H -> good_list wl -> text_words wl -> entropy_size_ok e ->
  exists m, NewMnemonic H (SetWordList wl) e = Ret (m, None) /\
            EntropyFromMnemonic H (SetWordList wl) m = (e, None).
Proof. exact C01_roundtrip_l. Qed.
Print Assumptions C01_roundtrip.

Theorem C01_roundtrip_bundled : forall t c e, In (t, c) bundled -> entropy_size_ok e ->
  exists m, NewMnemonic RealPrims (SetWordList (wl_words t)) e = Ret (m, None) /\
            EntropyFromMnemonic RealPrims (SetWordList (wl_words t)) m = (e, None).
Proof. exact C01_roundtrip_bundled_l. Qed.
Print Assumptions C01_roundtrip_bundled.

Example C01_roundtrip_ex : prims_ok RealPrims /\ good_list english /\ text_words english /\ entropy_size_ok zero16 /\
  In (english_text, english_crc) bundled.
Proof. exact C01_roundtrip_ex_l. Qed.

(** C02. What NewMnemonic computes. *)

Theorem C02_NewMnemonic : forall H st e, prims_ok H -> (2048 <= length (GetWordList st))%nat ->
  (entropy_size_ok e ->
     NewMnemonic H st e = Ret (Join (B " ") (bip39_words H (GetWordList st) e), None) /\
     length (bip39_words H (GetWordList st) e) = (length e * 3 / 4)%nat) /\
  (~ entropy_size_ok e -> NewMnemonic H st e = Ret ([], Some ErrEntropyLengthInvalid)).
Proof. exact C02_NewMnemonic_l. Qed.
Print Assumptions C02_NewMnemonic.

Example C02_NewMnemonic_ex : (2048 <= length (GetWordList (SetWordList english)))%nat /\ entropy_size_ok zero16 /\ ~ entropy_size_ok [x00].
Proof. exact C02_NewMnemonic_ex_l. Qed.

(** C03. EntropyFromMnemonic accepts exactly the BIP-39 sentences. *)

Theorem C03_accepts_exactly : forall H wl m, prims_ok H -> good_list wl ->
  (forall e, EntropyFromMnemonic H (SetWordList wl) m = (e, None) <->
             (entropy_size_ok e /\ Fields m = bip39_words H wl e)) /\
  (IsMnemonicValid H (SetWordList wl) m = true <->
     exists e, entropy_size_ok e /\ Fields m = bip39_words H wl e).
Proof. exact C03_accepts_exactly_l. Qed.
Print Assumptions C03_accepts_exactly.

Theorem C03_same_entropy_same_words : forall H wl m m' e, prims_ok H -> good_list wl ->
  EntropyFromMnemonic H (SetWordList wl) m = (e, None) ->
  EntropyFromMnemonic H (SetWordList wl) m' = (e, None) -> Fields m = Fields m'.
Proof. exact C03_same_entropy_same_words_l. Qed.
Print Assumptions C03_same_entropy_same_words.

Example C03_accepts_exactly_ex : EntropyFromMnemonic RealPrims (SetWordList english) abandon_spaces = (zero16, None) /\
  EntropyFromMnemonic RealPrims (SetWordList english) abandon_tabs = (zero16, None).
Proof. exact C03_accepts_exactly_ex_l. Qed.

(** C04. Exactly 2^(11-n/3) last words complete any n-1 list words. *)

Theorem C04_last_words : forall H wl p n, prims_ok H -> good_list wl -> text_words wl ->
  In n [12; 15; 18; 21; 24]%nat -> length p = (n - 1)%nat -> Forall (fun w => In w wl) p ->
  exists L, NoDup L /\ length L = (2 ^ (11 - n / 3))%nat /\
    forall w, In w L <-> (In w wl /\ IsMnemonicValid H (SetWordList wl) (Join (B " ") (p ++ [w])) = true).
Proof. exact C04_last_words_l. Qed.
Print Assumptions C04_last_words.

Example C04_last_words_ex : Forall (fun w => In w english) (repeat (nth 0 english []) 11) /\ length (repeat (nth 0 english []) 11) = (12 - 1)%nat.
Proof. exact C04_last_words_ex_l. Qed.

(** C05. MnemonicToByteArray. *)

Theorem C05_raw : forall H st m, MnemonicToByteArray H st m true = EntropyFromMnemonic H st m.
Proof. exact C05_raw_l. Qed.
Print Assumptions C05_raw.

Theorem C05_single_spaces : forall H wl e, prims_ok H -> good_list wl -> text_words wl -> entropy_size_ok e ->
  exists arr, MnemonicToByteArray H (SetWordList wl) (Join (B " ") (bip39_words H wl e)) false = (arr, None) /\
    length arr = S (length e) /\ bits_of arr = repeat false (8 - length e / 4) ++ bip39_bits H e.
Proof. exact C05_single_spaces_l. Qed.
Print Assumptions C05_single_spaces.

Theorem C05_any_spacing : forall H wl m e, prims_ok H -> good_list wl ->
  EntropyFromMnemonic H (SetWordList wl) m = (e, None) ->
  exists arr, MnemonicToByteArray H (SetWordList wl) m false = (arr, None) /\
    be_Z arr = bits_val (bip39_bits H e) /\
    length arr = Nat.max (ba_size (Z.of_nat (length (Split x20 m)))) (nbytes (bits_val (bip39_bits H e))).
Proof. exact C05_any_spacing_l. Qed.
Print Assumptions C05_any_spacing.

Theorem C05_any_spacing_refuted : exists m e arr, EntropyFromMnemonic RealPrims (SetWordList english) m = (e, None) /\
  MnemonicToByteArray RealPrims (SetWordList english) m false = (arr, None) /\
  length e = 16%nat /\ length arr = 1%nat.
Proof. exact C05_any_spacing_refuted_l. Qed.
Print Assumptions C05_any_spacing_refuted.

Example C05_any_spacing_ex : prims_ok RealPrims /\ good_list english /\ text_words english /\ entropy_size_ok zero16 /\
  EntropyFromMnemonic RealPrims (SetWordList english) abandon_tabs = (zero16, None).
Proof. exact C05_any_spacing_ex_l. Qed.

(** C06. Error classes of EntropyFromMnemonic; the last conjunct shows that the cases are exhaustive. *)

Theorem C06_error_classes : forall H wl m, prims_ok H -> good_list wl ->
  let ws := Fields m in
  let r := EntropyFromMnemonic H (SetWordList wl) m in
  (~ In (length ws) [12; 15; 18; 21; 24]%nat -> r = ([], Some ErrInvalidMnemonic)) /\
  (In (length ws) [12; 15; 18; 21; 24]%nat -> forall p w q, ws = p ++ w :: q ->
     Forall (fun v => In v wl) p -> ~ In w wl -> r = ([], Some (ErrWord w))) /\
  (In (length ws) [12; 15; 18; 21; 24]%nat -> forall is, sentence_indices wl ws is ->
     let k := (length ws / 3)%nat in
     let bits := flat_map bits11 is in
     exists e, bits_of e = firstn (32 * k) bits /\
       (firstn k (bits_of (p_sha256 H e)) = skipn (32 * k) bits -> r = (e, None)) /\
       (firstn k (bits_of (p_sha256 H e)) <> skipn (32 * k) bits -> r = ([], Some ErrChecksumIncorrect))) /\
  ((exists p w q, ws = p ++ w :: q /\ Forall (fun v => In v wl) p /\ ~ In w wl) \/ exists is, sentence_indices wl ws is).
Proof. exact C06_error_classes_l. Qed.
Print Assumptions C06_error_classes.

Example C06_error_classes_ex : ~ In (length (Fields (B "abandon"))) [12; 15; 18; 21; 24]%nat /\
  (In (length (Fields abandon_tabs)) [12; 15; 18; 21; 24]%nat /\ exists is, sentence_indices english (Fields abandon_tabs) is) /\
  (In (length (repeat abaco_nfc 12)) [12; 15; 18; 21; 24]%nat /\ Fields (Join (B " ") (repeat abaco_nfc 12)) = [] ++ abaco_nfc :: repeat abaco_nfc 11).
Proof. exact C06_error_classes_ex_l. Qed.

(** C07. Validity ignores white space, the seed does not. *)

Theorem C07_validity_ignores_spacing : forall H st ws m m', text_words ws -> spaced ws m -> spaced ws m' ->
  EntropyFromMnemonic H st m = EntropyFromMnemonic H st m' /\
  IsMnemonicValid H st m = IsMnemonicValid H st m'.
Proof. exact C07_validity_ignores_spacing_l. Qed.
Print Assumptions C07_validity_ignores_spacing.

Theorem C07_only_the_words : forall H st m, EntropyFromMnemonic H st (Join (B " ") (Fields m)) = EntropyFromMnemonic H st m.
Proof. exact C07_only_the_words_l. Qed.
Print Assumptions C07_only_the_words.

Theorem C07_seed_is_of_the_text : forall H st m m' pw, Fields m = Fields m' -> IsMnemonicValid H st m = true ->
  IsMnemonicValid H st m' = true /\
  (DeriveSeedFromMnemonic H st m pw = DeriveSeedFromMnemonic H st m' pw <->
   p_pbkdf2 H m (B "mnemonic" ++ pw) = p_pbkdf2 H m' (B "mnemonic" ++ pw)).
Proof. exact C07_seed_is_of_the_text_l. Qed.
Print Assumptions C07_seed_is_of_the_text.

Theorem C07_seed_spacing_refuted : exists H m m' pw, prims_ok H /\ Fields m = Fields m' /\
  IsMnemonicValid H (SetWordList english) m = true /\
  IsMnemonicValid H (SetWordList english) m' = true /\
  DeriveSeedFromMnemonic H (SetWordList english) m pw <>
  DeriveSeedFromMnemonic H (SetWordList english) m' pw.
Proof. exact C07_seed_spacing_refuted_l. Qed.
Print Assumptions C07_seed_spacing_refuted.

Example C07_validity_ignores_spacing_ex : text_words [B "a"; B "b"] /\ spaced [B "a"; B "b"] (B "a b") /\
  spaced [B "a"; B "b"] (B " a" ++ [xe3; x80; x80; x09] ++ B "b").
Proof. exact C07_validity_ignores_spacing_ex_l. Qed.

(** C08. Seed gating. *)

Theorem C08_seed_gating : forall H st m pw, prims_ok H ->
  length (NewSeed H m pw) = 64%nat /\ NewSeed H m pw = p_pbkdf2 H m (B "mnemonic" ++ pw) /\
  (IsMnemonicValid H st m = true ->
     NewSeedWithErrorChecking H st m pw = (NewSeed H m pw, None) /\
     exists h, DeriveSeedFromMnemonic H st m pw = (h, None) /\ length h = 128%nat /\ h = HexEncode (NewSeed H m pw)) /\
  (IsMnemonicValid H st m = false ->
     exists x, snd (EntropyFromMnemonic H st m) = Some x /\
       NewSeedWithErrorChecking H st m pw = ([], Some x) /\ DeriveSeedFromMnemonic H st m pw = ([], Some x)).
Proof. exact C08_seed_gating_l. Qed.
Print Assumptions C08_seed_gating.

Example C08_seed_gating_ex : IsMnemonicValid RealPrims (SetWordList english) abandon_spaces = true /\
  IsMnemonicValid RealPrims (SetWordList english) (B "abandon") = false.
Proof. exact C08_seed_gating_ex_l. Qed.

(** C09. Word lookup after any history of SetWordList calls. *)

Theorem C09_lookup : forall st0 history l w,
  let st := fold_left (fun _ x => SetWordList x) (history ++ [l]) st0 in
  GetWordList st = l /\
  (forall i, GetWordIndex st w = (i, true) <->
     (0 <= i /\ nth_error l (Z.to_nat i) = Some w /\ forall j, nth_error l j = Some w -> (j <= Z.to_nat i)%nat)) /\
  (GetWordIndex st w = (0, false) <-> ~ In w l) /\
  (NoDup l -> forall i, nth_error l i = Some w -> GetWordIndex st w = (Z.of_nat i, true)).
Proof. exact C09_lookup_l. Qed.
Print Assumptions C09_lookup.

Example C09_lookup_ex : NoDup english /\ nth_error english 3 = Some (B "about") /\ ~ In abaco_nfc spanish /\
  fold_left (fun _ x => SetWordList x) ([spanish] ++ [english]) (SetWordList []) = SetWordList english.
Proof. exact C09_lookup_ex_l. Qed.

(** C10. Aliasing of the active list. *)

Theorem C10_consistent_without_writes : forall s ops, consistent (aview s) -> quiet s ops -> consistent (aview (fold_left astep ops s)).
Proof. exact C10_consistent_without_writes_l. Qed.
Print Assumptions C10_consistent_without_writes.

Theorem C10_aliasing_refuted : forall H wl w, prims_ok H -> good_list wl -> text_words wl -> Fields w = [w] -> ~ In w wl ->
  exists e m, entropy_size_ok e /\
    let s := fold_left astep [OSet 0; OWrite 0 0 w] (mkA [wl] 0 []) in
    NewMnemonic H (aview s) e = Ret (m, None) /\
    EntropyFromMnemonic H (aview s) m = ([], Some (ErrWord w)) /\
    EntropyFromMnemonic H (SetWordList wl) m = ([], Some (ErrWord w)).
Proof. exact C10_aliasing_refuted_l. Qed.
Print Assumptions C10_aliasing_refuted.

Example C10_aliasing_ex : Fields abaco_nfc = [abaco_nfc] /\ ~ In abaco_nfc spanish /\
  consistent (aview (mkA [english; spanish] 0 (wordMap (SetWordList english)))) /\
  quiet (mkA [english; spanish] 0 (wordMap (SetWordList english))) [OSet 1; OWrite 0 0 []].
Proof. exact C10_aliasing_ex_l. Qed.

(** C11. A reader concurrent with SetWordList. *)

Theorem C11_serial_readers : forall H old l (t : nat -> nat) e m,
  ((forall n, t n = 0%nat) ->
     NewMnemonic_at H (fun n => state_at old l (t n)) e = NewMnemonic H old e /\
     EntropyFromMnemonic_at H (fun n => state_at old l (t n)) m = EntropyFromMnemonic H old m) /\
  ((forall n, (length l + 2 <= t n)%nat) ->
     NewMnemonic_at H (fun n => state_at old l (t n)) e = NewMnemonic H (SetWordList l) e /\
     EntropyFromMnemonic_at H (fun n => state_at old l (t n)) m = EntropyFromMnemonic H (SetWordList l) m).
Proof. exact C11_serial_readers_l. Qed.
Print Assumptions C11_serial_readers.

Theorem C11_concurrent_words : forall H old l (t : nat -> nat) e, prims_ok H -> length (wordList old) = 2048%nat -> length l = 2048%nat ->
  entropy_size_ok e ->
  exists ws, NewMnemonic_at H (fun n => state_at old l (t n)) e = Ret (Join (B " ") ws, None) /\
    Forall2 (fun w i => w = nth (Z.to_nat i) (wordList old) [] \/ w = nth (Z.to_nat i) l []) ws (bip39_indices H e).
Proof. exact C11_concurrent_words_l. Qed.
Print Assumptions C11_concurrent_words.

Theorem C11_concurrent_reader_refuted : forall H wl e, prims_ok H -> good_list wl -> text_words wl -> entropy_size_ok e ->
  let m := Join (B " ") (bip39_words H wl e) in
  EntropyFromMnemonic H (SetWordList wl) m = (e, None) /\
  exists w, EntropyFromMnemonic_at H (fun _ => state_at (SetWordList wl) wl 2) m = ([], Some (ErrWord w)) /\ In w wl.
Proof. exact C11_concurrent_reader_refuted_l. Qed.
Print Assumptions C11_concurrent_reader_refuted.

Theorem C11_mixed_sentence_refuted : forall H l0 l1, prims_ok H -> good_list l0 -> text_words l0 -> good_list l1 -> text_words l1 ->
  ~ In (nth 0 l0 []) l1 -> Forall (fun w => ~ In w l0) l1 ->
  exists t e m, (forall n, (t n <= t (S n))%nat) /\ entropy_size_ok e /\
    NewMnemonic_at H (fun n => state_at (SetWordList l0) l1 (t n)) e = Ret (m, None) /\
    IsMnemonicValid H (SetWordList l0) m = false /\ IsMnemonicValid H (SetWordList l1) m = false.
Proof. exact C11_mixed_sentence_refuted_l. Qed.
Print Assumptions C11_mixed_sentence_refuted.

Theorem C11_mixed_accepted_refuted : forall H l0 l1 e c, prims_ok H -> good_list l0 -> text_words l0 -> good_list l1 -> text_words l1 ->
  (forall w, In w l0 -> ~ In w l1) -> entropy_size_ok e -> (0 < c < length (bip39_indices H e))%nat ->
  let m := Join (B " ") (firstn c (bip39_words H l0 e) ++ skipn c (bip39_words H l1 e)) in
  exists t, (forall n, (t n <= t (S n))%nat) /\
    EntropyFromMnemonic_at H (fun n => state_at (SetWordList l0) l1 (t n)) m = (e, None) /\
    IsMnemonicValid H (SetWordList l0) m = false /\ IsMnemonicValid H (SetWordList l1) m = false.
Proof. exact C11_mixed_accepted_refuted_l. Qed.
Print Assumptions C11_mixed_accepted_refuted.

Example C11_mixed_accepted_ex : (forall w, In w korean -> ~ In w english) /\ (0 < 6 < length (bip39_indices RealPrims zero16))%nat.
Proof. exact C11_mixed_accepted_ex_l. Qed.

Example C11_mixed_sentence_ex : ~ In (nth 0 english []) korean /\ Forall (fun w => ~ In w english) korean.
Proof. exact C11_mixed_sentence_ex_l. Qed.

(** C12. NewEntropy. *)

Theorem C12_NewEntropy : forall rd n,
  (In n [128; 160; 192; 224; 256] ->
     exists e, NewEntropy rd n = (e, None) /\ 8 * Z.of_nat (length e) = n /\
       (forall i, (i < length e)%nat ->
          nth_error e i = match nth_error rd i with Some b => Some b | None => Some x00 end) /\
       ((length e <= length rd)%nat -> e = firstn (length e) rd)) /\
  (~ In n [128; 160; 192; 224; 256] -> NewEntropy rd n = ([], Some ErrEntropyLengthInvalid)).
Proof. exact C12_NewEntropy_l. Qed.
Print Assumptions C12_NewEntropy.

Theorem C12_random_failure_reported_refuted : forall n, In n [128; 160; 192; 224; 256] -> exists e, NewEntropy [] n = (e, None) /\ e = repeat x00 (Z.to_nat (n / 8)).
Proof. exact C12_random_failure_reported_refuted_l. Qed.
Print Assumptions C12_random_failure_reported_refuted.

Example C12_NewEntropy_ex : In 128 [128; 160; 192; 224; 256] /\ ~ In 129 [128; 160; 192; 224; 256] /\ NewEntropy (repeat x07 20) 128 = (repeat x07 16, None).
Proof. exact C12_NewEntropy_ex_l. Qed.

(** C13. GenerateMnemonic. *)

Theorem C13_GenerateMnemonic : forall H wl rd n, prims_ok H -> good_list wl -> text_words wl ->
  (In n [12; 15; 18; 21; 24] ->
     exists e m, GenerateMnemonic H (SetWordList wl) rd n = Ret (m, None) /\
       Z.of_nat (length (Fields m)) = n /\ Z.of_nat (length e) = n * 4 / 3 /\
       EntropyFromMnemonic H (SetWordList wl) m = (e, None) /\ IsMnemonicValid H (SetWordList wl) m = true /\
       ((length e <= length rd)%nat -> e = firstn (length e) rd)) /\
  (~ In n [12; 15; 18; 21; 24] -> GenerateMnemonic H (SetWordList wl) rd n = Ret ([], Some ErrInvalidMnemonicWordsCount)).
Proof. exact C13_GenerateMnemonic_l. Qed.
Print Assumptions C13_GenerateMnemonic.

Example C13_GenerateMnemonic_ex : In 12 [12; 15; 18; 21; 24] /\ ~ In 13 [12; 15; 18; 21; 24] /\
  GenerateMnemonic RealPrims (SetWordList english) (repeat x00 16) 12 = Ret (abandon_spaces, None).
Proof. exact C13_GenerateMnemonic_ex_l. Qed.

(** C14. The ten bundled lists. *)

Theorem C14_bundled_lists : forall t c, In (t, c) bundled ->
  wl_init t c = Ret tt /\ length (wl_words t) = 2048%nat /\ NoDup (wl_words t) /\
  Forall (fun w => w <> [] /\ Fields w = [w]) (wl_words t).
Proof. exact C14_bundled_lists_l. Qed.
Print Assumptions C14_bundled_lists.

Example C14_bundled_lists_ex : length bundled = 10%nat.
Proof. exact C14_bundled_lists_ex_l. Qed.

(** C58. No Unicode normalisation: the list words are stored decomposed, the composed spelling of the same
    word is unknown, and the seed depends on the spelling of the passphrase. *)

Theorem C58_composed_spelling_refuted : In abaco_nfd spanish /\ ~ In abaco_nfc spanish /\
  forall H m p q, prims_ok H -> Fields m = p ++ abaco_nfc :: q -> Forall (fun v => In v spanish) p ->
    In (length (Fields m)) [12; 15; 18; 21; 24]%nat ->
    EntropyFromMnemonic H (SetWordList spanish) m = ([], Some (ErrWord abaco_nfc)).
Proof. exact C58_composed_spelling_refuted_l. Qed.
Print Assumptions C58_composed_spelling_refuted.

Example C58_composed_spelling_ex : Fields (Join (B " ") (repeat abaco_nfc 12)) = [] ++ abaco_nfc :: repeat abaco_nfc 11 /\ length (repeat abaco_nfc 12) = 12%nat.
Proof. exact C58_composed_spelling_ex_l. Qed.

Theorem C58_passphrase_spelling_refuted : exists H m, prims_ok H /\ IsMnemonicValid H (SetWordList english) m = true /\
  DeriveSeedFromMnemonic H (SetWordList english) m pass_nfc <>
  DeriveSeedFromMnemonic H (SetWordList english) m pass_nfd.
Proof. exact C58_passphrase_spelling_refuted_l. Qed.
Print Assumptions C58_passphrase_spelling_refuted.

(** C59. Any number of goroutines inside SetWordList, under every schedule. *)

Theorem C59_writers_invariant : forall l0 args sched,
  let s := srun (SetWordList l0, map P0 args) sched in
  In (GetWordList (fst s)) (l0 :: args) /\
  (forall w i, GetWordIndex (fst s) w = (i, true) ->
     exists l, In l (l0 :: args) /\ 0 <= i /\ nth_error l (Z.to_nat i) = Some w).
Proof. exact C59_writers_invariant_l. Qed.
Print Assumptions C59_writers_invariant.

Theorem C59_single_writer : forall st l, srun (st, [P0 l]) (repeat 0%nat (length l + 4)) = (SetWordList l, [PDone]).
Proof. exact C59_single_writer_l. Qed.
Print Assumptions C59_single_writer.

Theorem C59_two_writers_refuted : forall H l0 l1 l2 e, prims_ok H -> good_list l1 -> text_words l1 -> good_list l2 -> text_words l2 ->
  (forall w, In w l1 -> ~ In w l2) -> entropy_size_ok e ->
  let s := srun (SetWordList l0, [P0 l1; P0 l2]) (two_sched l1 l2) in
  snd s = [PDone; PDone] /\
  GetWordList (fst s) = l2 /\
  (forall w, In w l1 -> snd (GetWordIndex (fst s) w) = true) /\
  EntropyFromMnemonic H (fst s) (Join (B " ") (bip39_words H l1 e)) = (e, None) /\
  NewMnemonic H (fst s) e = Ret (Join (B " ") (bip39_words H l2 e), None).
Proof. exact C59_two_writers_refuted_l. Qed.
Print Assumptions C59_two_writers_refuted.

Example C59_two_writers_ex : good_list korean /\ text_words korean /\ (forall w, In w korean -> ~ In w english).
Proof. exact C59_two_writers_ex_l. Qed.
