(** AllLists.v - the ten bundled word lists together, and concrete sentences used as witnesses. *)
From Verif Require Import Base BaseFacts GoStr GoStrFacts Prims Hash HashFacts Bip39 SpecBip39 Bip39Facts Bip39Facts2
  WordLists WlChineseSimplified WlChineseTraditional WlCzech WlEnglish WlFrench WlItalian WlJapanese WlKorean
  WlPortuguese WlSpanish Abandon.

(** Text and checksum of each file of bip39/wordlists (the variables chineseSimplified, ..., spanish
    and the constants in the init functions, lines 9-18 of each file). For bip39/wordlists/spanish.go:9-18 (others alike). *)
Definition bundled : list (bytes * bytes) :=
  [(chineseSimplified_text, chineseSimplified_crc); (chineseTraditional_text, chineseTraditional_crc);
   (czech_text, czech_crc); (english_text, english_crc); (french_text, french_crc); (italian_text, italian_crc);
   (japanese_text, japanese_crc); (korean_text, korean_crc); (portuguese_text, portuguese_crc);
   (spanish_text, spanish_crc)].

Lemma bundled_good t c : In (t, c) bundled ->
  wl_init t c = Ret tt /\ length (wl_words t) = 2048%nat /\ NoDup (wl_words t) /\
  Forall (fun w => w <> [] /\ Fields w = [w]) (wl_words t).
Proof.
  intros Hin.
  assert (G : wl_good t c).
  { unfold bundled in Hin.
    destruct Hin as [E|Hin]; [injection E as <- <-; exact chineseSimplified_good|].
    destruct Hin as [E|Hin]; [injection E as <- <-; exact chineseTraditional_good|].
    destruct Hin as [E|Hin]; [injection E as <- <-; exact czech_good|].
    destruct Hin as [E|Hin]; [injection E as <- <-; exact english_good|].
    destruct Hin as [E|Hin]; [injection E as <- <-; exact french_good|].
    destruct Hin as [E|Hin]; [injection E as <- <-; exact italian_good|].
    destruct Hin as [E|Hin]; [injection E as <- <-; exact japanese_good|].
    destruct Hin as [E|Hin]; [injection E as <- <-; exact korean_good|].
    destruct Hin as [E|Hin]; [injection E as <- <-; exact portuguese_good|].
    destruct Hin as [E|Hin]; [injection E as <- <-; exact spanish_good|]. destruct Hin. }
  destruct G as (G1 & (G2 & G3) & G4). split; [exact G1|]. split; [exact G2|]. split; [exact G3|].
  eapply Forall_impl; [|exact G4]. intros w E. split; [|exact E]. intros ->. discriminate E.
Qed.
Lemma bundled_roundtrip t c e : In (t, c) bundled -> entropy_size_ok e ->
  exists m, NewMnemonic RealPrims (SetWordList (wl_words t)) e = Ret (m, None) /\
            EntropyFromMnemonic RealPrims (SetWordList (wl_words t)) m = (e, None).
Proof.
  intros Hin He. destruct (bundled_good t c Hin) as (_ & G2 & G3 & G4).
  assert (GL : good_list (wl_words t)) by (split; assumption).
  assert (T : text_words (wl_words t)) by (eapply Forall_impl; [|exact G4]; intros w [_ E]; exact E).
  exists (Join (B " ") (bip39_words RealPrims (wl_words t) e)).
  assert (E : NewMnemonic RealPrims (SetWordList (wl_words t)) e
     = Ret (Join (B " ") (bip39_words RealPrims (wl_words t) e), None)).
  { apply NewMnemonic_ok; [apply real_prims_ok| |exact He]. cbn [SetWordList wordList]. lia. }
  split; [exact E|]. apply (roundtrip _ _ _ _ real_prims_ok GL T He E).
Qed.
Lemma english_list : good_list english /\ text_words english.
Proof. apply english_good. Qed.
Lemma spanish_list : good_list spanish /\ text_words spanish.
Proof. apply spanish_good. Qed.

(** For bip39/wordlists/spanish.go:9-18 (others alike). *)
Definition okb (r : bytes * option err) (v : bytes) : bool :=
  bytes_eqb (fst r) v && match snd r with None => true | Some _ => false end.
Lemma okb_spec r v : okb r v = true -> r = (v, None).
Proof.
  unfold okb. destruct r as [a [x|]]; cbn [fst snd]; rewrite andb_true_iff; intros [E1 E2]; [discriminate|].
  apply bytes_eqb_spec in E1 as ->. reflexivity.
Qed.
Lemma abandon_1 : okb (EntropyFromMnemonic RealPrims (SetWordList english_lines) abandon_spaces) zero16 = true.
Proof. vm_cast_no_check (eq_refl true). Qed.
Lemma abandon_5 : okb (MnemonicToByteArray RealPrims (SetWordList english_lines) abandon_tabs false) [x03] = true.
Proof. vm_cast_no_check (eq_refl true). Qed.
Lemma abandon_fields : Fields abandon_spaces = abandon_words /\ Fields abandon_tabs = abandon_words /\
  Fields abandon_two_spaces = abandon_words.
Proof. repeat split; reflexivity. Qed.
Lemma abandon_checks :
  EntropyFromMnemonic RealPrims (SetWordList english) abandon_spaces = (zero16, None) /\
  EntropyFromMnemonic RealPrims (SetWordList english) abandon_tabs = (zero16, None) /\
  EntropyFromMnemonic RealPrims (SetWordList english) abandon_two_spaces = (zero16, None) /\
  MnemonicToByteArray RealPrims (SetWordList english) abandon_tabs false = ([x03], None).
Proof.
  destruct abandon_fields as (F1 & F2 & F3). rewrite english_eq.
  pose proof (okb_spec _ _ abandon_1) as E1.
  split; [exact E1|]. split; [|split].
  - rewrite <- E1. apply entropy_of_fields. congruence.
  - rewrite <- E1. apply entropy_of_fields. congruence.
  - exact (okb_spec _ _ abandon_5).
Qed.
(** Canonically equivalent spellings: U+00E1 against a U+0301; and the passphrase U+00E9 against e U+0301.
    For bip39/wordlists/spanish.go:9-18 (others alike). *)
Definition abaco_nfd : bytes := [x61; xcc; x81] ++ B "baco".
(** For bip39/wordlists/spanish.go:9-18 (others alike). *)
Definition abaco_nfc : bytes := [xc3; xa1] ++ B "baco".
(** For bip39/wordlists/spanish.go:9-18 (others alike). *)
Definition pass_nfc : bytes := [xc3; xa9].
(** For bip39/wordlists/spanish.go:9-18 (others alike). *)
Definition pass_nfd : bytes := [x65; xcc; x81].
(** For bip39/wordlists/spanish.go:9-18 (others alike). *)
Definition memb (w : bytes) (l : list bytes) : bool := existsb (bytes_eqb w) l.
Lemma memb_In w l : memb w l = true <-> In w l.
Proof.
  unfold memb. rewrite existsb_exists. split.
  - intros (x & Hx & E). apply bytes_eqb_spec in E as ->. exact Hx.
  - intros Hin. exists w. split; [exact Hin|apply bytes_eqb_refl].
Qed.
Lemma memb_false w l : memb w l = false -> ~ In w l.
Proof. intros E I. apply memb_In in I. congruence. Qed.
Lemma abaco_1 : memb abaco_nfd spanish_lines = true.
Proof. vm_cast_no_check (eq_refl true). Qed.
Lemma abaco_2 : memb abaco_nfc spanish_lines = false.
Proof. vm_cast_no_check (eq_refl false). Qed.
Lemma abaco : In abaco_nfd spanish /\ ~ In abaco_nfc spanish.
Proof. rewrite spanish_eq. exact (conj (proj1 (memb_In _ _) abaco_1) (memb_false _ _ abaco_2)). Qed.
(** The Korean and the English list have no word in common. *)
Lemma kor_eng_lines : disjointb korean_lines english_lines = true.
Proof. vm_cast_no_check (eq_refl true). Qed.
Lemma kor_eng : Forall (fun w => ~ In w english) korean.
Proof. rewrite english_eq, korean_eq. exact (disjoint_ok _ _ kor_eng_lines). Qed.
Lemma eng_kor_lines : memb (nth 0 english_lines []) korean_lines = false.
Proof. vm_cast_no_check (eq_refl false). Qed.
Lemma eng_kor : ~ In (nth 0 english []) korean.
Proof. rewrite english_eq, korean_eq. exact (memb_false _ _ eng_kor_lines). Qed.
(** Hash functions for which PBKDF2 is the identity up to padding: enough to tell texts apart. For bip39/bip39.go:253-255. *)
Definition EchoPrims : Prims :=
  mkPrims (p_sha256 RealPrims) (p_ripemd160 RealPrims) (p_hmac512 RealPrims) (p_keccak256 RealPrims)
    (fun m s => firstn 64 (rev s ++ rev m ++ repeat x00 64)).
Lemma echo_prims_ok : prims_ok EchoPrims.
Proof.
  destruct real_prims_ok as (A & B & C & D & _). repeat split; try assumption.
  intros p s. cbn [EchoPrims p_pbkdf2]. rewrite firstn_length, !app_length, repeat_length. lia.
Qed.
Lemma entropy_echo st m : EntropyFromMnemonic EchoPrims st m = EntropyFromMnemonic RealPrims st m.
Proof. unfold EntropyFromMnemonic, entropyOfWords, firstChecksumByte. cbn [EchoPrims p_sha256]. reflexivity. Qed.
