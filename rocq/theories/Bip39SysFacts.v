(** Bip39SysFacts.v *)
From Verif Require Import Base BaseFacts GoStr GoStrFacts Prims Bip39 SpecBip39 Bip39Facts Bip39Facts2 Bip39Sys.
From Coq Require Import ZifyBool ZifyNat ZifyN.

(** ** Aliasing *)
Lemma nth_set_nth {A} (l : list A) i j x d : nth j (set_nth i x l) d =
  if (i =? j)%nat && (i <? length l)%nat then x else nth j l d.
Proof.
  revert i j; induction l as [|y l IH]; intros i j.
  - change (i <? length (@nil A))%nat with false. rewrite andb_false_r. destruct i; reflexivity.
  - destruct i as [|i], j as [|j]; try reflexivity. cbn [set_nth nth length]. rewrite IH. reflexivity.
Qed.
Lemma set_nth_length {A} (l : list A) i x : length (set_nth i x l) = length l.
Proof. revert i; induction l as [|y l IH]; intros [|i]; simpl; auto. Qed.

(** No write goes to the array that is the active list at that moment. *)
(** In proofs; for bip39/bip39.go:77-89. *)
Fixpoint quiet (s : astate) (ops : list aop) : Prop :=
  match ops with
  | [] => True
  | o :: r => match o with OWrite a _ _ => a <> cur s | OSet _ => True end /\ quiet (astep s o) r
  end.
(** In proofs; for bip39/bip39.go:77-89. *)
Definition consistent (st : wstate) : Prop := st = SetWordList (GetWordList st).

Theorem alias_quiet s ops : consistent (aview s) -> quiet s ops ->
  consistent (aview (fold_left astep ops s)).
Proof.
  revert s; induction ops as [|o ops IH]; intros s C Q; [exact C|].
  destruct Q as [Q1 Q2]. cbn [fold_left]. apply IH; [|exact Q2].
  destruct o as [a|a i w].
  - reflexivity.
  - unfold consistent, aview, astep, GetWordList, SetWordList in *. cbn [heap cur amap wordList wordMap] in *.
    rewrite nth_set_nth.
    destruct (Nat.eqb_spec a (cur s)) as [E|E]; [contradiction|]. cbn [andb]. exact C.
Qed.

(** In proofs; for bip39/bip39.go:77-89. *)
Definition zeros16 : bytes := repeat x00 16.
Lemma zeros16_size : entropy_size_ok zeros16. Proof. left. reflexivity. Qed.

Lemma groups_first k l : (0 < k)%nat -> exists r, groups11 k l = firstn 11 l :: r.
Proof. destruct k as [|k]; [lia|]. intros _. cbn [groups11]. eauto. Qed.
Lemma zeros16_first H wl : prims_ok H -> exists r, bip39_words H wl zeros16 = nth 0 wl [] :: r.
Proof.
  intros HP. unfold bip39_words, bip39_indices.
  destruct (groups_first (bip39_count zeros16) (bip39_bits H zeros16)) as [r E]; [cbn; lia|].
  rewrite E. cbn [map].
  assert (F : firstn 11 (bip39_bits H zeros16) = repeat false 11).
  { unfold bip39_bits. rewrite firstn_app. change (bits_of zeros16) with (repeat false 128).
    reflexivity. }
  rewrite F. eexists. reflexivity.
Qed.

Theorem alias_breaks H wl w : prims_ok H -> good_list wl -> text_words wl -> Fields w = [w] -> ~ In w wl ->
  exists e m, entropy_size_ok e /\
    let s := fold_left astep [OSet 0; OWrite 0 0 w] (mkA [wl] 0 []) in
    NewMnemonic H (aview s) e = Ret (m, None) /\
    EntropyFromMnemonic H (aview s) m = ([], Some (ErrWord w)) /\
    EntropyFromMnemonic H (SetWordList wl) m = ([], Some (ErrWord w)).
Proof.
  intros HP HG HT Hw Hn. pose proof HG as [HL ND].
  destruct wl as [|w0 wl'] eqn:EW; [discriminate|]. rewrite <- EW in *.
  set (wl2 := w :: wl').
  assert (L2 : length wl2 = 2048%nat) by (unfold wl2; rewrite <- HL, EW; reflexivity).
  exists zeros16, (Join (B " ") (bip39_words H wl2 zeros16)). split; [apply zeros16_size|].
  cbv zeta. set (s := fold_left astep _ _).
  assert (V : aview s = mkW wl2 (wordMap (SetWordList wl))).
  { unfold s, aview. rewrite EW. reflexivity. }
  rewrite V. split.
  { rewrite (NewMnemonic_ok H (mkW wl2 _) zeros16 HP); [reflexivity| |apply zeros16_size].
    cbn [wordList]. lia. }
  assert (F : Fields (Join (B " ") (bip39_words H wl2 zeros16)) = bip39_words H wl2 zeros16).
  { apply Fields_Join, Forall_forall. intros v Hv.
    assert (Hin : In v wl2).
    { unfold bip39_words in Hv. rewrite bip39_indices_eq in Hv by (try assumption; apply zeros16_size).
      apply in_map_iff in Hv as (i & <- & Hi).
      pose proof (proj1 (Forall_forall _ _) (idxs_range _ _) i Hi) as R. cbv beta in R. apply nth_In. lia. }
    apply fields_word_ok. destruct Hin as [<-|Hin]; [exact Hw|].
    apply (proj1 (Forall_forall _ _) HT). rewrite EW. right. exact Hin. }
  assert (E : forall st, wordMap st = wordMap (SetWordList wl) ->
     EntropyFromMnemonic H st (Join (B " ") (bip39_words H wl2 zeros16)) = ([], Some (ErrWord w))).
  { intros st Est. unfold EntropyFromMnemonic, splitMnemonicWords. rewrite F.
    rewrite bip39_words_length by (try assumption; apply zeros16_size).
    change (validWordCount (3 * (length zeros16 / 4))) with true. unfold entropyOfWords. rewrite Est.
    destruct (zeros16_first H wl2 HP) as [r E]. rewrite E.
    rewrite (decode_words_bad wl _ w); [reflexivity|]. exists [], r. split; [reflexivity|]. split; [constructor|exact Hn]. }
  split; apply E; reflexivity.
Qed.

(** ** One writer, one reader *)
Lemma state_at_0 old l : state_at old l 0 = old. Proof. reflexivity. Qed.
Lemma fill_states_length wl l : forall i m, length (fill_states wl i l m) = length l.
Proof. induction l as [|v l IH]; intros i m; [reflexivity|]. cbn [fill_states length]. rewrite IH. reflexivity. Qed.
Lemma fill_states_last wl l : forall i m d, (0 < length l)%nat ->
  nth (length l - 1) (fill_states wl i l m) d = mkW wl (fill_map i l m).
Proof.
  induction l as [|v l IH]; intros i m d Hl; [simpl in Hl; lia|]. cbn [fill_states length fill_map].
  destruct l as [|v' l].
  - reflexivity.
  - replace (S (length (v' :: l)) - 1)%nat with (S (length (v' :: l) - 1)) by (simpl; lia).
    cbn [nth]. rewrite IH by (simpl; lia). reflexivity.
Qed.
Lemma state_at_end old l t : (length l + 2 <= t)%nat -> state_at old l t = SetWordList l.
Proof.
  intros Ht. unfold state_at, trace, SetWordList_states.
  destruct t as [|[|[|t]]]; [lia|lia| |].
  - destruct l; [reflexivity|simpl in Ht; lia].
  - cbn [nth]. destruct (Nat.ltb_spec t (length l)) as [Hl|Hl].
    + replace t with (length l - 1)%nat by lia. rewrite fill_states_last by lia. reflexivity.
    + apply nth_overflow. rewrite fill_states_length. lia.
Qed.
Lemma NewMnemonic_loop_const st rd j n x acc : (forall i, rd i = st) ->
  NewMnemonic_loop_at rd j n x acc = NewMnemonic_loop (wordList st) n x acc.
Proof.
  intros E. revert j x acc; induction n as [|n IH]; intros j x acc; [reflexivity|].
  cbn [NewMnemonic_loop_at NewMnemonic_loop]. rewrite E. destruct (nth_error _ _); [apply IH|reflexivity].
Qed.
Lemma NewMnemonic_const H st rd e : (forall i, rd i = st) -> NewMnemonic_at H rd e = NewMnemonic H st e.
Proof. intros E. unfold NewMnemonic_at, NewMnemonic. rewrite (NewMnemonic_loop_const st) by exact E. reflexivity. Qed.
Lemma decode_words_const st rd ws : (forall i, rd i = st) ->
  forall j b, decode_words_at rd j ws b = decode_words (wordMap st) ws b.
Proof.
  intros E. induction ws as [|v ws IH]; intros j b; [reflexivity|].
  cbn [decode_words_at decode_words]. rewrite E. destruct (map_get _ _); [apply IH|reflexivity].
Qed.
Lemma Entropy_const H st rd m : (forall i, rd i = st) -> EntropyFromMnemonic_at H rd m = EntropyFromMnemonic H st m.
Proof.
  intros E. unfold EntropyFromMnemonic_at, EntropyFromMnemonic, entropyOfWords.
  destruct (splitMnemonicWords m) as [ws [|]]; [|reflexivity]. rewrite (decode_words_const st) by exact E.
  destruct (decode_words _ _ _); reflexivity.
Qed.
Theorem reader_serial H old l (t : nat -> nat) e m :
  ((forall n, t n = 0%nat) ->
     NewMnemonic_at H (fun n => state_at old l (t n)) e = NewMnemonic H old e /\
     EntropyFromMnemonic_at H (fun n => state_at old l (t n)) m = EntropyFromMnemonic H old m) /\
  ((forall n, (length l + 2 <= t n)%nat) ->
     NewMnemonic_at H (fun n => state_at old l (t n)) e = NewMnemonic H (SetWordList l) e /\
     EntropyFromMnemonic_at H (fun n => state_at old l (t n)) m = EntropyFromMnemonic H (SetWordList l) m).
Proof.
  split; intros T; split.
  - apply NewMnemonic_const. intros i. rewrite T. reflexivity.
  - apply Entropy_const. intros i. rewrite T. reflexivity.
  - apply NewMnemonic_const. intros i. apply state_at_end, T.
  - apply Entropy_const. intros i. apply state_at_end, T.
Qed.
(** Setting the very same list again makes a valid sentence invalid for a concurrent reader. *)
Theorem reader_race H wl e : prims_ok H -> good_list wl -> text_words wl -> entropy_size_ok e ->
  let m := Join (B " ") (bip39_words H wl e) in
  EntropyFromMnemonic H (SetWordList wl) m = (e, None) /\
  exists w, EntropyFromMnemonic_at H (fun _ => state_at (SetWordList wl) wl 2) m = ([], Some (ErrWord w)) /\ In w wl.
Proof.
  intros HP HG HT He m. split.
  - apply EntropyFromMnemonic_iff; [assumption|assumption|]. split; [exact He|]. apply Fields_bip39; assumption.
  - rewrite (Entropy_const H (mkW wl [])) by reflexivity.
    unfold EntropyFromMnemonic, splitMnemonicWords, m. rewrite Fields_bip39 by assumption.
    pose proof (bip39_words_length H wl e HP He) as LW. destruct (size_cs e He) as (k & Hk & Hl & Hc).
    fold (csz e) in LW. rewrite Hc in LW. rewrite LW.
    assert (V : validWordCount (3 * k) = true) by (apply validWordCount_spec; exists k; lia). rewrite V.
    pose proof (bip39_words_in H wl e) as I.
    destruct (bip39_words H wl e) as [|w r]; [simpl in LW; lia|].
    exists w. split; [reflexivity|]. apply I; try assumption. left. reflexivity.
Qed.
(** In between, NewMnemonic can take words from both lists. *)
Lemma loop_at_mixed (l0 l1 : list bytes) rd n x j acc :
  (length l0 = 2048)%nat -> (length l1 = 2048)%nat ->
  (forall i, wordList (rd i) = l0 \/ wordList (rd i) = l1) ->
  exists ws, NewMnemonic_loop_at rd j n x acc = Ret (ws ++ acc) /\
    Forall2 (fun w i => w = nth (Z.to_nat i) l0 [] \/ w = nth (Z.to_nat i) l1 []) ws (idxs n x).
Proof.
  intros L0 L1 E. revert x j acc; induction n as [|n IH]; intros x j acc.
  - exists []. split; [reflexivity|constructor].
  - cbn [NewMnemonic_loop_at]. rewrite word_index. pose proof (Z.mod_pos_bound x 2048 ltac:(lia)) as R.
    cbn [idxs].
    destruct (nth_error (wordList (rd j)) (Z.to_nat (x mod 2048))) as [w|] eqn:N.
    + destruct (IH (x / 2048) (S j) (w :: acc)) as (ws & Ews & F). exists (ws ++ [w]).
      split; [rewrite Ews, <- app_assoc; reflexivity|]. apply Forall2_app; [exact F|].
      constructor; [|constructor]. destruct (E j) as [Ej|Ej]; rewrite Ej in N;
        [left|right]; symmetry; apply nth_error_nth; exact N.
    + exfalso. destruct (E j) as [Ej|Ej]; rewrite Ej in N; apply nth_error_None in N; lia.
Qed.
(** Whatever the interleaving, NewMnemonic does not panic and each word comes from one of the two lists. *)
Theorem reader_words H old l (t : nat -> nat) e : prims_ok H -> length (wordList old) = 2048%nat -> length l = 2048%nat ->
  entropy_size_ok e ->
  exists ws, NewMnemonic_at H (fun n => state_at old l (t n)) e = Ret (Join (B " ") ws, None) /\
    Forall2 (fun w i => w = nth (Z.to_nat i) (wordList old) [] \/ w = nth (Z.to_nat i) l []) ws (bip39_indices H e).
Proof.
  intros HP L0 L1 He. unfold NewMnemonic_at.
  assert (V : validateEntropyBitSize (Z.of_nat (length e) * 8) = None) by (apply validate_spec; exact He).
  rewrite V. destruct (size_cs e He) as (k & Hk & Hlen & Hc).
  replace ((Z.of_nat (length e) * 8 + Z.of_nat (length e) * 8 / 32) / 11) with (Z.of_nat (3 * k)).
  2:{ rewrite Hlen. replace (Z.of_nat (4 * k) * 8) with (Z.of_nat k * 32) by lia.
      rewrite Z.div_mul by lia. replace (Z.of_nat k * 32 + Z.of_nat k) with (Z.of_nat (3 * k) * 11) by lia.
      rewrite Z.div_mul by lia. reflexivity. }
  rewrite Nat2Z.id, be_addChecksum by assumption.
  destruct (loop_at_mixed (wordList old) l (fun n => state_at old l (t n)) (3 * k) (full H e) 0 [] L0 L1) as (ws & E & F).
  { intros i. unfold state_at, trace, SetWordList_states.
    destruct (t i) as [|[|[|q]]]; [left; reflexivity|right; reflexivity|right; reflexivity|].
    right. cbn [nth]. assert (G : forall r i m q, wordList (nth q (fill_states l i r m) (SetWordList l)) = l).
    { induction r as [|v r IH]; intros i' m q'; [destruct q'; reflexivity|]. cbn [fill_states].
      destruct q'; [reflexivity|]. cbn [nth]. apply IH. }
    apply G. }
  rewrite E, app_nil_r. exists ws. split; [reflexivity|]. rewrite bip39_indices_eq, Hc by assumption. exact F.
Qed.
(** A mixed sentence that neither list accepts. *)
Theorem reader_mixed H l0 l1 : prims_ok H -> good_list l0 -> text_words l0 -> good_list l1 -> text_words l1 ->
  ~ In (nth 0 l0 []) l1 -> Forall (fun w => ~ In w l0) l1 ->
  exists t e m, (forall n, (t n <= t (S n))%nat) /\ entropy_size_ok e /\
    NewMnemonic_at H (fun n => state_at (SetWordList l0) l1 (t n)) e = Ret (m, None) /\
    IsMnemonicValid H (SetWordList l0) m = false /\ IsMnemonicValid H (SetWordList l1) m = false.
Proof.
  intros HP G0 T0 G1 T1 N1 N0. pose proof G0 as [L0 D0]. pose proof G1 as [L1 D1].
  (* first iteration (last word) from l0, the rest from l1 *)
  set (t := fun n : nat => match n with O => O | _ => 1%nat end).
  exists t, zeros16. 
  set (rd := fun n => state_at (SetWordList l0) l1 (t n)).
  unfold NewMnemonic_at. change (validateEntropyBitSize (Z.of_nat (length zeros16) * 8)) with (@None err).
  change (Z.to_nat ((Z.of_nat (length zeros16) * 8 + Z.of_nat (length zeros16) * 8 / 32) / 11)) with 12%nat.
  rewrite be_addChecksum by (try assumption; apply zeros16_size).
  set (D := full H zeros16).
  assert (R : forall x, exists w, nth_error l1 (Z.to_nat (x mod 2048)) = Some w /\ In w l1).
  { intros x. pose proof (Z.mod_pos_bound x 2048 ltac:(lia)).
    destruct (nth_error l1 (Z.to_nat (x mod 2048))) as [w|] eqn:E; [|apply nth_error_None in E; lia].
    exists w. split; [reflexivity|]. eapply nth_error_In; exact E. }
  assert (R0 : exists w, nth_error l0 (Z.to_nat (D mod 2048)) = Some w /\ In w l0).
  { pose proof (Z.mod_pos_bound D 2048 ltac:(lia)).
    destruct (nth_error l0 (Z.to_nat (D mod 2048))) as [w|] eqn:E; [|apply nth_error_None in E; lia].
    exists w. split; [reflexivity|]. eapply nth_error_In; exact E. }
  assert (Loop : forall n x j acc, (0 < j)%nat -> exists ws,
     NewMnemonic_loop_at rd j n x acc = Ret (ws ++ acc) /\ length ws = n /\ Forall (fun w => In w l1) ws).
  { induction n as [|n IH]; intros x j acc Hj; [exists []; auto|].
    cbn [NewMnemonic_loop_at]. rewrite word_index.
    assert (Erd : wordList (rd j) = l1) by (unfold rd, t; destruct j; [lia|reflexivity]). rewrite Erd.
    destruct (R x) as (w & Ew & Iw). rewrite Ew.
    destruct (IH (x / 2048) (S j) (w :: acc) ltac:(lia)) as (ws & E & L & F).
    exists (ws ++ [w]). rewrite E, <- app_assoc. split; [reflexivity|]. split; [rewrite app_length; simpl; lia|].
    apply Forall_app. split; [exact F|]. constructor; [exact Iw|constructor]. }
  destruct R0 as (w0 & Ew0 & Iw0).
  destruct (Loop 11%nat (D / 2048) 1%nat [w0] ltac:(lia)) as (ws & E & L & F).
  assert (E12 : NewMnemonic_loop_at rd 0 12 D [] = Ret (ws ++ [w0])).
  { change (NewMnemonic_loop_at rd 0 12 D []) with (
      match nth_error l0 (Z.to_nat (be_Z (padByteSlice (Z_bytes (Z.land D 2047)) 2))) with
      | Some w => NewMnemonic_loop_at rd 1 11 (D / 2048) [w] | None => Panic end).
    rewrite word_index, Ew0. exact E. }
  exists (Join (B " ") (ws ++ [w0])). split.
  { intros [|n]; unfold t; lia. }
  split; [apply zeros16_size|]. split.
  { fold rd. rewrite E12. reflexivity. }
  assert (Wok : Fields (Join (B " ") (ws ++ [w0])) = ws ++ [w0]).
  { apply Fields_Join, Forall_forall. intros v Hv. apply fields_word_ok.
    apply in_app_iff in Hv as [Hv|[<-|[]]].
    - apply (proj1 (Forall_forall _ _) T1). apply (proj1 (Forall_forall _ _) F v Hv).
    - apply (proj1 (Forall_forall _ _) T0). exact Iw0. }
  assert (LW : length (ws ++ [w0]) = 12%nat) by (rewrite app_length; simpl; lia).
  destruct ws as [|v ws]; [simpl in L; lia|]. cbn [app] in *.
  assert (Iv : In v l1) by (inversion F; assumption).
  assert (Nv : ~ In v l0) by (apply (proj1 (Forall_forall _ _) N0); exact Iv).
  assert (Nw0 : ~ In w0 l1).
  { intros I1. apply (proj1 (Forall_forall _ _) N0 w0 I1). exact Iw0. }
  unfold IsMnemonicValid, EntropyFromMnemonic, splitMnemonicWords. rewrite Wok, LW.
  change (validWordCount 12) with true. cbn match. unfold entropyOfWords. split.
  - rewrite (decode_words_bad l0 _ v); [reflexivity|]. exists [], (ws ++ [w0]). split; [reflexivity|]. split; [constructor|exact Nv].
  - rewrite (decode_words_bad l1 _ w0); [reflexivity|]. exists (v :: ws), []. split; [reflexivity|]. split; [exact F|exact Nw0].
Qed.

(** A reader that looks up the first words before SetWordList and the rest after it accepts a sentence of two lists. *)
Lemma decode_at_fold rd ws : forall is j b, length ws = length is ->
  (forall n w i, nth_error ws n = Some w -> nth_error is n = Some i -> map_get (wordMap (rd (j + n)%nat)) w = Some i) ->
  decode_words_at rd j ws b = inl (fold_left (fun a i => Z.lor (a * 2048) (be_Z (Z_be 2 i))) is b).
Proof.
  induction ws as [|w ws IH]; intros [|i is] j b L E; try discriminate; [reflexivity|]. cbn [decode_words_at fold_left].
  pose proof (E 0%nat w i eq_refl eq_refl) as E0. rewrite Nat.add_0_r in E0. rewrite E0. apply IH; [cbn in L; lia|].
  intros n w' i' N1 N2. rewrite Nat.add_succ_comm. apply E; assumption.
Qed.
Lemma nth_error_firstn' {A} (l : list A) n i : (i < n)%nat -> nth_error (firstn n l) i = nth_error l i.
Proof. revert n i; induction l as [|x l IH]; intros [|n] [|i] H; cbn; try lia; try reflexivity. apply IH. lia. Qed.
Lemma nth_error_skipn' {A} (l : list A) n i : nth_error (skipn n l) i = nth_error l (n + i).
Proof. revert l; induction n as [|n IH]; intros [|x l]; cbn; try reflexivity; [destruct i; reflexivity|apply IH]. Qed.
(** In proofs; for bip39/bip39.go:77-89. *)
Definition mixed_words (H : Prims) (l0 l1 : list bytes) (c : nat) (e : bytes) : list bytes :=
  firstn c (bip39_words H l0 e) ++ skipn c (bip39_words H l1 e).
Theorem reader_accepts_mixed H l0 l1 c e : prims_ok H -> good_list l0 -> text_words l0 -> good_list l1 -> text_words l1 -> entropy_size_ok e ->
  EntropyFromMnemonic_at H (fun n => state_at (SetWordList l0) l1 (if (n <? c)%nat then 0 else length l1 + 2)%nat)
    (Join (B " ") (mixed_words H l0 l1 c e)) = (e, None).
Proof.
  intros HP G0 T0 G1 T1 He. set (is := bip39_indices H e).
  assert (Ri : forall n i, nth_error is n = Some i -> 0 <= i < 2048).
  { intros n i N. unfold is in N. rewrite bip39_indices_eq in N by assumption. apply nth_error_In in N.
    exact (proj1 (Forall_forall _ _) (idxs_range _ _) i N). }
  assert (Nw : forall l n i, length l = 2048%nat -> nth_error is n = Some i -> nth_error (bip39_words H l e) n = Some (nth (Z.to_nat i) l []) /\ In (nth (Z.to_nat i) l []) l).
  { intros l n i L N. split; [|apply nth_In; pose proof (Ri n i N); lia]. unfold bip39_words. fold is. rewrite nth_error_map, N. reflexivity. }
  assert (Lw : forall l, length (bip39_words H l e) = length is) by (intro l; unfold bip39_words; apply map_length).
  assert (Nm : forall n i, nth_error is n = Some i -> nth_error (mixed_words H l0 l1 c e) n = Some (nth (Z.to_nat i) (if (n <? c)%nat then l0 else l1) [])).
  { intros n i N. assert (Ln : (n < length is)%nat) by (apply nth_error_Some; congruence).
    unfold mixed_words. destruct (Nat.ltb_spec n c).
    - rewrite nth_error_app1 by (rewrite firstn_length, Lw; lia). rewrite nth_error_firstn' by lia. apply Nw; [exact (proj1 G0)|exact N].
    - rewrite nth_error_app2 by (rewrite firstn_length, Lw; lia). rewrite firstn_length, Lw, Nat.min_l by lia.
      rewrite nth_error_skipn'. replace (c + (n - c))%nat with n by lia. apply Nw; [exact (proj1 G1)|exact N]. }
  assert (Lm : length (mixed_words H l0 l1 c e) = length is).
  { unfold mixed_words. rewrite app_length, firstn_length, skipn_length, !Lw. lia. }
  assert (F : Fields (Join (B " ") (mixed_words H l0 l1 c e)) = mixed_words H l0 l1 c e).
  { apply Fields_Join, Forall_forall. intros v Hv. apply fields_word_ok. apply In_nth_error in Hv. destruct Hv as [n Hn].
    assert (Ln : (n < length is)%nat) by (rewrite <- Lm; apply nth_error_Some; congruence).
    destruct (nth_error is n) as [i|] eqn:N; [|apply nth_error_None in N; lia]. rewrite (Nm n i N) in Hn. injection Hn as <-.
    pose proof (Ri n i N) as R. destruct (n <? c)%nat.
    - apply (proj1 (Forall_forall _ _) T0), nth_In. rewrite (proj1 G0). lia.
    - apply (proj1 (Forall_forall _ _) T1), nth_In. rewrite (proj1 G1). lia. }
  assert (MG : forall l n i, good_list l -> nth_error is n = Some i -> map_get (wordMap (SetWordList l)) (nth (Z.to_nat i) l []) = Some i).
  { intros l n i [L D] N. pose proof (Ri n i N) as R. rewrite SetWordList_get.
    rewrite (last_pos_nodup l (Z.to_nat i) _ D); [f_equal; lia|]. apply nth_error_nth'. lia. }
  assert (K : EntropyFromMnemonic H (SetWordList l1) (Join (B " ") (bip39_words H l1 e)) = (e, None)).
  { apply EntropyFromMnemonic_iff; [assumption|assumption|]. split; [exact He|]. apply Fields_bip39; assumption. }
  rewrite <- K. rewrite <- (Entropy_const H (SetWordList l1) (fun _ => SetWordList l1)) by reflexivity.
  unfold EntropyFromMnemonic_at, splitMnemonicWords. rewrite F, Fields_bip39 by assumption. rewrite Lm, Lw.
  destruct (validWordCount (length is)); [|reflexivity].
  rewrite (decode_at_fold _ (mixed_words H l0 l1 c e) is 0 0 Lm).
  2:{ intros n w i Nw' N. rewrite (Nm n i N) in Nw'. injection Nw' as <-. cbn [Nat.add].
      destruct (n <? c)%nat.
      - rewrite state_at_0. apply (MG l0 n); assumption.
      - rewrite state_at_end by lia. apply (MG l1 n); assumption. }
  rewrite (decode_at_fold _ (bip39_words H l1 e) is 0 0 (Lw l1)).
  2:{ intros n w i Nw' N. destruct (Nw l1 n i (proj1 G1) N) as [N1 _]. rewrite N1 in Nw'. injection Nw' as <-. apply (MG l1 n); assumption. }
  rewrite Lm, Lw. reflexivity.
Qed.
Theorem mixed_words_invalid H l0 l1 c e : prims_ok H -> good_list l0 -> text_words l0 -> good_list l1 -> text_words l1 -> entropy_size_ok e ->
  (forall w, In w l0 -> ~ In w l1) -> (0 < c < length (bip39_indices H e))%nat ->
  IsMnemonicValid H (SetWordList l0) (Join (B " ") (mixed_words H l0 l1 c e)) = false /\
  IsMnemonicValid H (SetWordList l1) (Join (B " ") (mixed_words H l0 l1 c e)) = false.
Proof.
  intros HP G0 T0 G1 T1 He Dj Hc.
  assert (W0 : forall w, In w (firstn c (bip39_words H l0 e)) -> In w l0).
  { intros w Hw. apply (bip39_words_in H l0 e); try assumption. rewrite <- (firstn_skipn c). apply in_or_app. left. exact Hw. }
  assert (W1 : forall w, In w (skipn c (bip39_words H l1 e)) -> In w l1).
  { intros w Hw. apply (bip39_words_in H l1 e); try assumption. rewrite <- (firstn_skipn c). apply in_or_app. right. exact Hw. }
  assert (Lw : forall l, length (bip39_words H l e) = length (bip39_indices H e)) by (intro l; unfold bip39_words; apply map_length).
  destruct (firstn c (bip39_words H l0 e)) as [|a A] eqn:EA.
  { exfalso. apply (f_equal (@length _)) in EA. rewrite firstn_length, Lw in EA. cbn [length] in EA. lia. }
  destruct (skipn c (bip39_words H l1 e)) as [|z Z] eqn:EZ.
  { exfalso. apply (f_equal (@length _)) in EZ. rewrite skipn_length, Lw in EZ. cbn [length] in EZ. lia. }
  unfold mixed_words. rewrite EA, EZ.
  assert (F : Fields (Join (B " ") ((a :: A) ++ z :: Z)) = (a :: A) ++ z :: Z).
  { apply Fields_Join, Forall_forall. intros v Hv. apply fields_word_ok. apply in_app_or in Hv. destruct Hv as [Hv|Hv].
    - apply (proj1 (Forall_forall _ _) T0), W0, Hv.
    - apply (proj1 (Forall_forall _ _) T1), W1, Hv. }
  unfold IsMnemonicValid, EntropyFromMnemonic, splitMnemonicWords. rewrite F.
  destruct (validWordCount _); [|split; reflexivity]. unfold entropyOfWords. split.
  - rewrite (decode_words_bad l0 _ z); [reflexivity|]. exists (a :: A), Z. split; [reflexivity|]. split; [apply Forall_forall, W0|].
    intro I0. apply (Dj z I0). apply W1. left. reflexivity.
  - rewrite (decode_words_bad l1 _ a); [reflexivity|]. exists [], (A ++ z :: Z). split; [reflexivity|]. split; [constructor|].
    apply Dj, W0. left. reflexivity.
Qed.

(** ** Several writers *)
(** In proofs; for bip39/bip39.go:77-89. *)
Definition pc_ok (ls : list (list bytes)) (p : pc) : Prop :=
  match p with
  | P0 l => In l ls
  | P3 i r => exists l a, In l ls /\ l = a ++ r /\ i = Z.of_nat (length a)
  | _ => True
  end.
(** In proofs; for bip39/bip39.go:77-89. *)
Definition sys_ok (ls : list (list bytes)) (s : sys) : Prop :=
  In (wordList (fst s)) ls /\
  (forall w i, In (w, i) (wordMap (fst s)) -> exists l, In l ls /\ 0 <= i /\ nth_error l (Z.to_nat i) = Some w) /\
  Forall (pc_ok ls) (snd s).
Lemma Forall_set_nth {A} (P : A -> Prop) l i x : Forall P l -> P x -> Forall P (set_nth i x l).
Proof.
  intros H Hx. revert i; induction H as [|y l Hy H IH]; intros [|i]; cbn [set_nth]; constructor; auto.
Qed.
Lemma sstep_ok ls s tid : sys_ok ls s -> sys_ok ls (sstep s tid).
Proof.
  intros (C & M & P). destruct s as [st ps]. cbn [fst snd] in *. unfold sstep.
  destruct (nth_error ps tid) as [p|] eqn:E; [|repeat split; assumption].
  assert (Hp : pc_ok ls p) by (apply (proj1 (Forall_forall _ _) P); eapply nth_error_In; exact E).
  destruct p as [l| | |i [|v r]|]; cbn [pstep]; (split; [|split]); cbn [fst snd wordList wordMap];
    try assumption; try (apply Forall_set_nth; [exact P|]); try exact I.
  - intros w i [].
  - exists (wordList st), []. auto.
  - intros w j [Ej|Hin]; [|apply M; exact Hin]. injection Ej as <- <-.
    destruct Hp as (l & a & Hl & -> & ->). exists (a ++ v :: r). split; [exact Hl|]. split; [lia|].
    rewrite Nat2Z.id, nth_error_app2, Nat.sub_diag by lia. reflexivity.
  - destruct Hp as (l & a & Hl & -> & ->). exists (a ++ v :: r), (a ++ [v]). split; [exact Hl|].
    split; [rewrite <- app_assoc; reflexivity|]. rewrite app_length. simpl. lia.
Qed.
(** Whatever the schedule: the active list is one that was passed to SetWordList (or the initial one), and
    every map entry points to a position of the word in one of them. *)
Theorem writers_invariant l0 args sched :
  let s := srun (SetWordList l0, map P0 args) sched in
  In (wordList (fst s)) (l0 :: args) /\
  (forall w i, map_get (wordMap (fst s)) w = Some i ->
     exists l, In l (l0 :: args) /\ 0 <= i /\ nth_error l (Z.to_nat i) = Some w).
Proof.
  assert (I : sys_ok (l0 :: args) (SetWordList l0, map P0 args)).
  { split; [left; reflexivity|]. split.
    - cbn [fst]. unfold SetWordList. cbn [wordMap].
      assert (G : forall l a m, l0 = a ++ l -> (forall w i, In (w, i) m -> 0 <= i /\ nth_error l0 (Z.to_nat i) = Some w) ->
         forall w i, In (w, i) (fill_map (Z.of_nat (length a)) l m) -> 0 <= i /\ nth_error l0 (Z.to_nat i) = Some w).
      { induction l as [|v l IH]; intros a m Ea Hm w i Hin; [apply Hm; exact Hin|]. cbn [fill_map] in Hin.
        replace (Z.of_nat (length a) + 1) with (Z.of_nat (length (a ++ [v]))) in Hin by (rewrite app_length; simpl; lia).
        apply (IH (a ++ [v]) ((v, Z.of_nat (length a)) :: m)); [rewrite <- app_assoc; exact Ea| |exact Hin].
        intros w' i' [E|Hin']; [|apply Hm; exact Hin']. injection E as <- <-. split; [lia|].
        rewrite Ea, Nat2Z.id, nth_error_app2, Nat.sub_diag by lia. reflexivity. }
      intros w i Hin. exists l0. split; [left; reflexivity|].
      apply (G l0 [] [] eq_refl ltac:(intros ? ? []) w i Hin).
    - cbn [snd]. apply Forall_forall. intros p Hp. apply in_map_iff in Hp as (l & <- & Hl). right. exact Hl. }
  assert (G : forall sc s, sys_ok (l0 :: args) s -> sys_ok (l0 :: args) (srun s sc)).
  { induction sc as [|x sc IH]; intros s Hs; [exact Hs|]. cbn [srun fold_left]. apply IH, sstep_ok, Hs. }
  cbv zeta. destruct (G sched _ I) as (A & M & _). split; [exact A|].
  intros w i E. apply (M w i). clear -E. revert E. generalize (wordMap (fst (srun (SetWordList l0, map P0 args) sched))).
  induction l as [|[k v] l IH]; cbn [map_get]; [discriminate|].
  destruct (bytes_eqb w k) eqn:Ek; intros E.
  - injection E as <-. apply bytes_eqb_spec in Ek as ->. left. reflexivity.
  - right. apply IH. exact E.
Qed.
(** One writer alone (any schedule entries for others missing): SetWordList. *)
Lemma fill_run st r : forall i m wl, st = mkW wl m ->
  srun (st, [P3 i r]) (repeat 0%nat (S (length r))) = (mkW wl (fill_map i r m), [PDone]).
Proof.
  revert st; induction r as [|v r IH]; intros st i m wl ->; [reflexivity|].
  cbn [length repeat]. unfold srun. cbn [fold_left]. unfold sstep at 2. cbn [nth_error pstep set_nth wordList wordMap].
  apply (IH (mkW wl ((v, i) :: m)) (i + 1) ((v, i) :: m) wl eq_refl).
Qed.
Theorem writer_alone st l : srun (st, [P0 l]) (repeat 0%nat (length l + 4)) = (SetWordList l, [PDone]).
Proof.
  replace (length l + 4)%nat with (S (S (S (S (length l))))) by lia.
  change (repeat 0%nat (S (S (S (S (length l)))))) with (0 :: 0 :: 0 :: repeat 0 (S (length l)))%nat.
  unfold srun. cbn [fold_left]. unfold sstep at 2 3 4. cbn [nth_error pstep set_nth wordList wordMap].
  apply (fill_run (mkW l []) l 0 [] l eq_refl).
Qed.
(** Two writers: both calls return, yet words of the list that lost are still accepted. *)
(** In proofs; for bip39/bip39.go:77-89. *)
Definition two_sched (l1 l2 : list bytes) : list nat :=
  (* writer 0 runs up to its loop, writer 1 publishes its list and clears the map, writer 0 fills the
     map from its own range, writer 1 finishes *)
  ([0; 0; 0; 1; 1; 1] ++ repeat 0 (S (length l1)) ++ repeat 1 (S (length l2)))%nat.
Lemma fill_run2 r : forall i m wl q tid (p : pc) , (tid = 0 \/ tid = 1)%nat ->
  srun (mkW wl m, if (tid =? 0)%nat then [P3 i r; p] else [p; P3 i r]) (repeat tid (S (length r)) ++ q)
  = srun (mkW wl (fill_map i r m), if (tid =? 0)%nat then [PDone; p] else [p; PDone]) q.
Proof.
  induction r as [|v r IH]; intros i m wl q tid p Ht.
  - destruct Ht as [-> | ->]; reflexivity.
  - specialize (IH (i + 1) ((v, i) :: m) wl q tid p Ht). cbn [fill_map]. rewrite <- IH.
    destruct Ht as [-> | ->]; reflexivity.
Qed.
Theorem writers_race H l0 l1 l2 e : prims_ok H -> good_list l1 -> text_words l1 -> good_list l2 -> text_words l2 ->
  (forall w, In w l1 -> ~ In w l2) -> entropy_size_ok e ->
  let s := srun (SetWordList l0, [P0 l1; P0 l2]) (two_sched l1 l2) in
  snd s = [PDone; PDone] /\
  GetWordList (fst s) = l2 /\
  (forall w, In w l1 -> snd (GetWordIndex (fst s) w) = true) /\
  EntropyFromMnemonic H (fst s) (Join (B " ") (bip39_words H l1 e)) = (e, None) /\
  NewMnemonic H (fst s) e = Ret (Join (B " ") (bip39_words H l2 e), None).
Proof.
  intros HP G1 T1 G2 T2 Dj He s. pose proof G1 as [L1 D1]. pose proof G2 as [L2 D2].
  assert (Es : s = (mkW l2 (fill_map 0 l2 (fill_map 0 l1 [])), [PDone; PDone])).
  { unfold s, two_sched.
    change (srun (SetWordList l0, [P0 l1; P0 l2]) ([0; 0; 0; 1; 1; 1]%nat ++ repeat 0%nat (S (length l1)) ++ repeat 1%nat (S (length l2))))
      with (srun (mkW l2 [], if (0 =? 0)%nat then [P3 0 l1; P3 0 l2] else [P3 0 l2; P3 0 l1]) (repeat 0%nat (S (length l1)) ++ repeat 1%nat (S (length l2)))).
    rewrite (fill_run2 l1 0 [] l2 _ 0 (P3 0 l2)) by (left; reflexivity).
    rewrite <- (app_nil_r (repeat 1%nat (S (length l2)))).
    change (if (0 =? 0)%nat then [PDone; P3 0 l2] else [P3 0 l2; PDone])
      with (if (1 =? 0)%nat then [P3 0 l2; PDone] else [PDone; P3 0 l2]).
    rewrite (fill_run2 l2 0 _ l2 [] 1 PDone) by (right; reflexivity). reflexivity. }
  rewrite Es. cbn [fst snd]. split; [reflexivity|]. split; [reflexivity|].
  assert (MG : forall w, In w l1 -> map_get (fill_map 0 l2 (fill_map 0 l1 [])) w = last_pos w l1 0).
  { intros w Hw. rewrite fill_map_get. pose proof (Dj w Hw) as N. apply (last_pos_none w l2 0) in N. rewrite N.
    rewrite fill_map_get. destruct (last_pos w l1 0); reflexivity. }
  split; [|split].
  - intros w Hw. unfold GetWordIndex. cbn [wordMap]. rewrite MG by exact Hw.
    destruct (last_pos w l1 0) eqn:E; [reflexivity|]. apply last_pos_none in E. contradiction.
  - assert (K : EntropyFromMnemonic H (SetWordList l1) (Join (B " ") (bip39_words H l1 e)) = (e, None)).
    { apply EntropyFromMnemonic_iff; [assumption|assumption|]. split; [exact He|]. apply Fields_bip39; assumption. }
    rewrite <- K. unfold EntropyFromMnemonic, splitMnemonicWords. rewrite Fields_bip39 by assumption.
    destruct (validWordCount _); [|reflexivity]. unfold entropyOfWords. cbn [wordMap].
    assert (DW : forall ws b, Forall (fun w => In w l1) ws ->
      decode_words (fill_map 0 l2 (fill_map 0 l1 [])) ws b = decode_words (wordMap (SetWordList l1)) ws b).
    { induction ws as [|w ws IH]; intros b F; [reflexivity|]. inversion F; subst. cbn [decode_words].
      rewrite SetWordList_get, MG by assumption. destruct (last_pos w l1 0); [apply IH; assumption|reflexivity]. }
    rewrite DW; [reflexivity|]. apply Forall_forall. intros w Hw. eapply bip39_words_in; eassumption.
  - rewrite (NewMnemonic_ok H (mkW l2 _) e HP); [reflexivity| |exact He]. cbn [wordList]. lia.
Qed.
