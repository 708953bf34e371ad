(** UtilMnemonicFacts.v *)
From Verif Require Import Base BaseFacts GoStr GoStrFacts Prims Bip39 SpecBip39 Bip39Facts Bip39Facts2 UtilMnemonic.
From Verif Require Export HexFacts.
From Coq Require Import ZifyBool ZifyNat ZifyN.


Theorem GenerateMnemonic_ok H wl rd n : prims_ok H -> good_list wl -> text_words wl ->
  In n [12; 15; 18; 21; 24] ->
  exists e m, GenerateMnemonic H (SetWordList wl) rd n = Ret (m, None) /\
    Z.of_nat (length (Fields m)) = n /\ Z.of_nat (length e) = n * 4 / 3 /\
    EntropyFromMnemonic H (SetWordList wl) m = (e, None) /\ IsMnemonicValid H (SetWordList wl) m = true /\
    ((length e <= length rd)%nat -> e = firstn (length e) rd).
Proof.
  intros HP HG HT Hn.
  assert (G : exists b, In b [128; 160; 192; 224; 256] /\ b = n * 32 / 3 /\
     GenerateMnemonic H (SetWordList wl) rd n =
       match NewEntropy rd b with
       | (_, Some e) => Ret ([], Some e)
       | (bs, None) => match NewMnemonic H (SetWordList wl) bs with
          | Panic => Panic | Ret (_, Some e) => Ret ([], Some e) | Ret (m, None) => Ret (m, None) end
       end).
  { simpl in Hn. destruct Hn as [<-|[<-|[<-|[<-|[<-|[]]]]]];
      [exists 128|exists 160|exists 192|exists 224|exists 256]; (split; [simpl; tauto|split; reflexivity]). }
  destruct G as (b & Hb & Eb & EG).
  destruct (proj1 (NewEntropy_spec rd b) Hb) as (e & Ee & Le & _ & Fe).
  assert (Se : entropy_size_ok e).
  { unfold entropy_size_ok. simpl in Hb |- *. lia. }
  exists e, (Join (B " ") (bip39_words H wl e)).
  assert (EM : EntropyFromMnemonic H (SetWordList wl) (Join (B " ") (bip39_words H wl e)) = (e, None)).
  { apply EntropyFromMnemonic_iff; [assumption|assumption|]. split; [exact Se|]. apply Fields_bip39; assumption. }
  split.
  { rewrite EG, Ee. rewrite NewMnemonic_ok; [reflexivity|assumption| |exact Se].
    destruct HG as [HL _]. cbn [SetWordList wordList]. lia. }
  split.
  { rewrite Fields_bip39, bip39_words_length by assumption.
    simpl in Hn. destruct Hn as [<-|[<-|[<-|[<-|[<-|[]]]]]]; cbn in Eb; subst b;
      match type of Le with 8 * Z.of_nat ?l = ?v => assert (L8 : l = Z.to_nat (v / 8)) by (cbn; lia) end;
      rewrite L8; reflexivity. }
  split.
  { simpl in Hn. destruct Hn as [<-|[<-|[<-|[<-|[<-|[]]]]]]; cbn in Eb |- *; lia. }
  split; [exact EM|]. split; [unfold IsMnemonicValid; rewrite EM; reflexivity|exact Fe].
Qed.
Theorem GenerateMnemonic_bad H st rd n : ~ In n [12; 15; 18; 21; 24] ->
  GenerateMnemonic H st rd n = Ret ([], Some ErrInvalidMnemonicWordsCount).
Proof.
  intros Hn. unfold GenerateMnemonic. simpl in Hn.
  destruct (Z.eqb_spec n 12); [exfalso; lia|]. destruct (Z.eqb_spec n 15); [exfalso; lia|].
  destruct (Z.eqb_spec n 18); [exfalso; lia|]. destruct (Z.eqb_spec n 21); [exfalso; lia|].
  destruct (Z.eqb_spec n 24); [exfalso; lia|]. reflexivity.
Qed.

Theorem seed_gating H st m pw : prims_ok H ->
  length (NewSeed H m pw) = 64%nat /\
  (IsMnemonicValid H st m = true ->
     NewSeedWithErrorChecking H st m pw = (NewSeed H m pw, None) /\
     exists h, DeriveSeedFromMnemonic H st m pw = (h, None) /\ length h = 128%nat /\ h = HexEncode (NewSeed H m pw)) /\
  (IsMnemonicValid H st m = false ->
     exists x, snd (EntropyFromMnemonic H st m) = Some x /\
       NewSeedWithErrorChecking H st m pw = ([], Some x) /\ DeriveSeedFromMnemonic H st m pw = ([], Some x)).
Proof.
  intros (_ & _ & _ & _ & HP).
  assert (L : length (NewSeed H m pw) = 64%nat) by apply HP.
  split; [exact L|]. rewrite seed_checked. unfold IsMnemonicValid, DeriveSeedFromMnemonic.
  destruct (EntropyFromMnemonic H st m) as [e [x|]]; cbn [snd]; split; intros V; try discriminate V.
  - exists x. auto.
  - split; [reflexivity|]. exists (HexEncode (NewSeed H m pw)). split; [reflexivity|].
    rewrite HexEncode_length, L. split; reflexivity.
Qed.
(** The entropy array for every accepted text. *)
Theorem byte_array_any H wl m e : prims_ok H -> good_list wl ->
  EntropyFromMnemonic H (SetWordList wl) m = (e, None) ->
  exists arr, MnemonicToByteArray H (SetWordList wl) m false = (arr, None) /\
    be_Z arr = bits_val (bip39_bits H e) /\
    length arr = Nat.max (ba_size (Z.of_nat (length (Split x20 m)))) (nbytes (bits_val (bip39_bits H e))).
Proof.
  intros HP HG E. rewrite (byte_array_general H wl m e HP HG E). fold (full H e).
  eexists. split; [reflexivity|].
  apply EntropyFromMnemonic_iff in E as [He _]; [|assumption|assumption].
  pose proof (full_range H e HP He). rewrite be_Z_zeros, be_Z_bytes by lia. split; [reflexivity|].
  rewrite app_length, repeat_length, Z_bytes_length. lia.
Qed.
