(** Bip39ListFacts.v - word lists of any length and with repetitions (C98). *)
From Verif Require Import Base BaseFacts GoStr GoStrFacts Prims Bip39 SpecBip39 Bip39Facts Bip39Facts2.

(** ** NewMnemonic *)
Lemma loop_short wl n : forall x acc,
  (Forall (fun i => i < Z.of_nat (length wl)) (idxs n x) -> NewMnemonic_loop wl n x acc = Ret (map (fun i => nth (Z.to_nat i) wl []) (idxs n x) ++ acc)) /\
  (Exists (fun i => Z.of_nat (length wl) <= i) (idxs n x) -> NewMnemonic_loop wl n x acc = Panic).
Proof.
  induction n as [|n IH]; intros x acc; (split; intros F); [reflexivity|inversion F| |].
  - cbn [idxs] in F. apply Forall_app in F as [F1 F2]. inversion F2 as [|? ? L _]; subst.
    cbn [NewMnemonic_loop]. rewrite word_index. pose proof (Z.mod_pos_bound x 2048).
    rewrite (nth_error_nth' wl []) by lia. rewrite (proj1 (IH _ _) F1). cbn [idxs]. rewrite map_app, <- app_assoc. reflexivity.
  - cbn [idxs] in F. cbn [NewMnemonic_loop]. rewrite word_index. pose proof (Z.mod_pos_bound x 2048).
    destruct (nth_error wl (Z.to_nat (x mod 2048))) as [w|] eqn:N; [|reflexivity].
    assert (nth_error wl (Z.to_nat (x mod 2048)) <> None) as L by congruence. apply nth_error_Some in L.
    apply Exists_app in F as [F|F]; [apply (proj2 (IH _ _)); exact F|]. inversion F as [? ? K|? ? K]; subst; [lia|inversion K].
Qed.

Theorem NewMnemonic_any H st e : prims_ok H -> entropy_size_ok e ->
  (Forall (fun i => i < Z.of_nat (length (wordList st))) (bip39_indices H e) ->
     NewMnemonic H st e = Ret (Join (B " ") (bip39_words H (wordList st) e), None)) /\
  (Exists (fun i => Z.of_nat (length (wordList st)) <= i) (bip39_indices H e) -> NewMnemonic H st e = Panic).
Proof.
  intros HP He. unfold NewMnemonic.
  assert (V : validateEntropyBitSize (Z.of_nat (length e) * 8) = None) by (apply validate_spec; exact He).
  rewrite V. destruct (size_cs e He) as (k & Hk & Hlen & Hc).
  replace ((Z.of_nat (length e) * 8 + Z.of_nat (length e) * 8 / 32) / 11) with (Z.of_nat (3 * k)).
  2:{ rewrite Hlen. replace (Z.of_nat (4 * k) * 8) with (Z.of_nat k * 32) by lia.
      rewrite Z.div_mul by lia. replace (Z.of_nat k * 32 + Z.of_nat k) with (Z.of_nat (3 * k) * 11) by lia.
      rewrite Z.div_mul by lia. reflexivity. }
  rewrite Nat2Z.id. rewrite be_addChecksum by assumption. unfold bip39_words. rewrite bip39_indices_eq by assumption. rewrite Hc.
  split; intros F.
  - rewrite (proj1 (loop_short _ _ _ _) F). rewrite app_nil_r. reflexivity.
  - rewrite (proj2 (loop_short _ _ _ _) F). reflexivity.
Qed.

(** ** The number of a sentence *)
Lemma indices_in H e i : prims_ok H -> entropy_size_ok e -> In i (bip39_indices H e) -> 0 <= i < 2048.
Proof.
  intros HP He Hi. rewrite bip39_indices_eq in Hi by assumption.
  exact (proj1 (Forall_forall _ _) (idxs_range (3 * csz e) (full H e)) i Hi).
Qed.
Lemma indices_val H e : prims_ok H -> entropy_size_ok e -> ofidx (bip39_indices H e) = full H e /\ length (bip39_indices H e) = (3 * csz e)%nat.
Proof.
  intros HP He. rewrite bip39_indices_eq by assumption. rewrite idxs_length. split; [|reflexivity]. apply ofidx_idxs, full_range; assumption.
Qed.
(** the number that the loop over the words builds up; bip39/bip39.go:127-134 *)
Definition dval (is : list Z) (b : Z) : Z := fold_left (fun a i => Z.lor (a * 2048) (i mod 65536)) is b.
Lemma decode_any l ws is b : decode_idx l ws is -> decode_words (wordMap (SetWordList l)) ws b = inl (dval is b).
Proof.
  intros D. revert b. induction D as [|w i ws is Hw D IH]; intros b; [reflexivity|]. cbn [decode_words]. rewrite SetWordList_get, Hw.
  rewrite be_Z_be. change (p256 2) with 65536. apply IH.
Qed.
Lemma dval_app a b x : dval (a ++ b) x = dval b (dval a x).
Proof. apply fold_left_app. Qed.
Lemma dval_small is : Forall (fun i => 0 <= i < 2048) is -> forall b, 0 <= b -> dval is b = fold_left (fun a i => a * 2048 + i) is b /\ 0 <= dval is b.
Proof.
  intros F. induction F as [|i is Hi F IH]; intros b Hb; [split; [reflexivity|exact Hb]|]. unfold dval. cbn [fold_left].
  pose proof (decode_step b i Hb Hi) as E. rewrite be_Z_be in E. change (p256 2) with 65536 in E. rewrite E. apply IH. lia.
Qed.
Lemma entropy_of_value H l ws is k b : (4 <= k <= 8)%nat -> length ws = (3 * k)%nat -> decode_idx l ws is -> dval is 0 = b ->
  0 <= b < 2048 ^ Z.of_nat (3 * k) ->
  entropyOfWords H (SetWordList l) ws = if cs_ok H k b then (dec_entropy k b, None) else ([], Some ErrChecksumIncorrect).
Proof.
  intros Hk Hn HD Eb R. unfold entropyOfWords. rewrite (decode_any l ws is 0 HD), Eb. clear HD Eb.
  rewrite Hn, mask_eq by exact Hk.
  assert (P : 0 < 2 ^ Z.of_nat k) by (apply Z.pow_pos_nonneg; lia).
  replace (2 ^ Z.of_nat k - 1) with (Z.ones (Z.of_nat k)) by (rewrite Z.ones_equiv; lia).
  rewrite Z.land_ones by lia. rewrite Z.ones_equiv. replace (Z.pred (2 ^ Z.of_nat k) + 1) with (2 ^ Z.of_nat k) by lia.
  replace (3 * k / 3 * 4)%nat with (4 * k)%nat by (rewrite (Nat.mul_comm 3 k), Nat.div_mul by lia; lia).
  pose proof (dec_range k b R) as D.
  replace (padByteSlice (Z_bytes (b / 2 ^ Z.of_nat k)) (4 * k)) with (dec_entropy k b)
    by (unfold padByteSlice, dec_entropy; rewrite Z_bytes_length; apply Z_bytes_pad; exact D).
  unfold cs_ok. destruct (Nat.eqb_spec (3 * k) 24) as [E|E].
  - assert (k = 8%nat) as -> by lia. change (8 - Z.of_nat 8) with 0. rewrite Z.pow_0_r, Z.div_1_r. reflexivity.
  - rewrite shift_eq by exact Hk. reflexivity.
Qed.
(** Sentences whose number is that of an entropy decode to it. *)
Lemma entropy_of_same H l m is e : prims_ok H -> entropy_size_ok e -> decode_idx l (Fields m) is -> length is = length (bip39_indices H e) ->
  dval is 0 = ofidx (bip39_indices H e) -> EntropyFromMnemonic H (SetWordList l) m = (e, None).
Proof.
  intros HP He D L E. destruct (indices_val H e HP He) as [V N]. destruct (size_cs e He) as (k & Hk & Hl & Hc).
  pose proof (Forall2_length _ _ _ D) as LL. rewrite L, N, Hc in LL. unfold EntropyFromMnemonic, splitMnemonicWords.
  replace (validWordCount (length (Fields m))) with true by (symmetry; apply validWordCount_spec; exists k; lia).
  pose proof (full_range H e HP He) as FR. rewrite Hc in FR. rewrite V in E.
  rewrite (entropy_of_value H l (Fields m) is k (full H e) Hk LL D E FR).
  assert (C : cs_ok H k (full H e) = true) by (apply cs_ok_full; [exact HP|exact Hk|exact FR|]; rewrite <- Hc, dec_full by assumption; reflexivity).
  rewrite C, <- Hc, dec_full by assumption. reflexivity.
Qed.

(** ** Lists of 2048 words with repetitions *)
(** the word at i does not come again behind i, so that the map of bip39/bip39.go:80-83 keeps i for it *)
Definition last_place (l : list bytes) (i : Z) : Prop := forall j, nth_error l j = nth_error l (Z.to_nat i) -> (j <= Z.to_nat i)%nat.
Lemma last_place_pos l i w : 0 <= i -> nth_error l (Z.to_nat i) = Some w -> (last_place l i <-> last_pos w l 0 = Some i).
Proof.
  intros Hi N. split.
  - intros P. destruct (last_pos w l 0) as [j|] eqn:E.
    + pose proof (last_pos_last w l 0 j _ E N) as L. apply last_pos_some in E as [R M]. rewrite Z.sub_0_r in M.
      assert (Z.to_nat j <= Z.to_nat i)%nat by (apply P; congruence). f_equal. lia.
    + apply last_pos_none in E. apply nth_error_In in N. contradiction.
  - intros E j Nj. rewrite N in Nj. pose proof (last_pos_last w l 0 i j E Nj). lia.
Qed.
Lemma fields_list H l e : prims_ok H -> entropy_size_ok e -> (2048 <= length l)%nat -> text_words l ->
  Fields (Join (B " ") (bip39_words H l e)) = bip39_words H l e.
Proof.
  intros HP He L T. apply Fields_Join. apply Forall_forall. intros w Hw. apply text_words_ok in T. apply (proj1 (Forall_forall _ _) T).
  unfold bip39_words in Hw. apply in_map_iff in Hw as (i & <- & Hi). pose proof (indices_in H e i HP He Hi). apply nth_In. lia.
Qed.
Lemma decode_unique l ws a b : decode_idx l ws a -> decode_idx l ws b -> a = b.
Proof.
  intros D. revert b. induction D as [|w i ws is Hw D IH]; intros b K; inversion K as [|? j ? js Kw K']; subst; [reflexivity|].
  f_equal; [congruence|]. apply IH, K'.
Qed.
Theorem repeats_iff H l e : prims_ok H -> entropy_size_ok e -> length l = 2048%nat -> text_words l ->
  EntropyFromMnemonic H (SetWordList l) (Join (B " ") (bip39_words H l e)) = (e, None) <-> Forall (last_place l) (bip39_indices H e).
Proof.
  intros HP He L T. pose proof (fields_list H l e HP He ltac:(lia) T) as FE.
  destruct (indices_val H e HP He) as [V N]. destruct (size_cs e He) as (k & Hk & Hl & Hc).
  assert (R : Forall (fun i => 0 <= i < 2048) (bip39_indices H e)) by (apply Forall_forall; intros i Hi; exact (indices_in H e i HP He Hi)).
  assert (D : forall is, Forall (fun i => 0 <= i < 2048) is ->
    (decode_idx l (map (fun i => nth (Z.to_nat i) l []) is) is <-> Forall (last_place l) is)).
  { intros is F. induction F as [|i is Hi F IH]; [split; constructor|]. cbn [map].
    assert (Ni : nth_error l (Z.to_nat i) = Some (nth (Z.to_nat i) l [])) by (apply nth_error_nth'; lia).
    pose proof (last_place_pos l i (nth (Z.to_nat i) l []) ltac:(lia) Ni) as Q.
    split; intros K; (inversion K; subst; constructor; [apply Q|apply IH]; assumption). }
  split.
  - intros E. unfold EntropyFromMnemonic, splitMnemonicWords in E. rewrite FE in E.
    destruct (validWordCount (length (bip39_words H l e))); [|discriminate].
    assert (I : Forall (fun w => In w l) (bip39_words H l e)).
    { apply Forall_forall. intros w Hw. unfold bip39_words in Hw. apply in_map_iff in Hw as (i & <- & Hi).
      pose proof (indices_in H e i HP He Hi). apply nth_In. lia. }
    destruct (decode_idx_exists l _ I) as [is HD].
    assert (LW : length (bip39_words H l e) = (3 * k)%nat) by (unfold bip39_words; rewrite map_length, N, Hc; reflexivity).
    rewrite (entropyOfWords_eq H l _ is k Hk ltac:(lia) LW HD) in E.
    destruct (cs_ok H k (ofidx is)) eqn:C; [|discriminate]. injection E as Ee.
    pose proof (decode_idx_range l _ is ltac:(lia) HD) as Ri. pose proof (ofidx_range is Ri) as RO.
    pose proof (Forall2_length _ _ _ HD) as LL. rewrite <- LL, LW in RO.
    apply cs_ok_full in C; [|exact HP|exact Hk|exact RO]. rewrite Ee, <- V in C.
    assert (is = bip39_indices H e) as ->.
    { rewrite <- (idxs_ofidx is Ri), <- (idxs_ofidx _ R), C. f_equal. lia. }
    apply D; assumption.
  - intros F. apply (entropy_of_same H l _ (bip39_indices H e) e HP He); [rewrite FE; apply D; assumption|reflexivity|].
    apply (dval_small _ R 0). lia.
Qed.

(** Every first index below 2048 occurs. *)
Lemma first_index H i (rest : bytes) : prims_ok H -> 0 <= i < 2048 -> length rest = 14%nat ->
  exists e js, entropy_size_ok e /\ length e = 16%nat /\ bip39_indices H e = i :: js.
Proof.
  intros HP Hi Hr. set (e := Z_be 2 (i * 32) ++ rest). assert (L : length e = 16%nat) by (unfold e; rewrite app_length, Z_be_length; lia).
  assert (He : entropy_size_ok e) by (unfold entropy_size_ok; rewrite L; left; reflexivity).
  exists e. unfold bip39_indices. unfold bip39_count. rewrite L. change ((16 * 8 + 16 * 8 / 32) / 11)%nat with 12%nat. cbn [groups11 map].
  eexists. split; [exact He|]. split; [reflexivity|]. f_equal. unfold bip39_bits, e. unfold bits_of at 1. rewrite flat_map_app. fold (bits_of (Z_be 2 (i * 32))).
  rewrite <- app_assoc, firstn_app. pose proof (bits_of_length (Z_be 2 (i * 32))) as LB. rewrite Z_be_length in LB. rewrite LB.
  change (11 - 8 * 2)%nat with 0%nat. rewrite firstn_O, app_nil_r.
  pose proof (firstn_skipn 11 (bits_of (Z_be 2 (i * 32)))) as S. pose proof (f_equal bits_val S) as SV. rewrite bits_val_app in SV.
  rewrite bits_val_bits_of, be_Z_be in SV. change (p256 2) with 65536 in SV. rewrite Z.mod_small in SV by lia.
  rewrite skipn_length, LB in SV. change (2 ^ Z.of_nat (8 * 2 - 11)) with 32 in SV.
  pose proof (bits_val_range (skipn 11 (bits_of (Z_be 2 (i * 32))))) as R. rewrite skipn_length, LB in R. change (2 ^ Z.of_nat (8 * 2 - 11)) with 32 in R. lia.
Qed.

(** ** Lists of more than 2048 words *)
Lemma lor_one x : 0 <= x -> Z.lor x 1 = if Z.odd x then x else x + 1.
Proof.
  intros Hx. pose proof (Z.div_mod x 2 ltac:(lia)) as D. rewrite Zmod_odd in D. assert (0 <= x / 2) by (apply Z.div_pos; lia).
  destruct (Z.odd x).
  - assert (x = Z.lor (x / 2 * 2) 1) as E by (rewrite lor1 by assumption; lia). rewrite E at 1. rewrite <- Z.lor_assoc, Z.lor_diag. symmetry. exact E.
  - assert (x = x / 2 * 2) as E by lia. rewrite E at 1. rewrite lor1 by assumption. lia.
Qed.
Lemma step_over b t : 0 <= b -> 0 <= t < 2048 -> Z.lor (b * 2048) (2048 + t) = Z.lor b 1 * 2048 + t.
Proof.
  intros Hb Ht. assert (E : forall b, 0 <= b -> Z.lor (b * 2048) t = b * 2048 + t).
  { intros c Hc. pose proof (decode_step c t Hc Ht) as E. rewrite be_Z_be in E. change (p256 2) with 65536 in E. rewrite (Z.mod_small t) in E by lia. exact E. }
  rewrite <- (E (Z.lor b 1)) by (apply Z.lor_nonneg; lia). replace (2048 + t) with (Z.lor (1 * 2048) t) by (rewrite E; lia).
  rewrite Z.lor_assoc. f_equal. change 2048 with (2 ^ 11). rewrite <- !Z.shiftl_mul_pow2 by lia. rewrite Z.shiftl_lor. reflexivity.
Qed.
Lemma decode_nodup l is : NoDup l -> Forall (fun i => 0 <= i < Z.of_nat (length l)) is -> decode_idx l (map (fun i => nth (Z.to_nat i) l []) is) is.
Proof.
  intros ND H. induction H as [|i is Hi H IH]; [constructor|]. cbn [map]. constructor; [|exact IH].
  rewrite (last_pos_nodup l (Z.to_nat i)); [f_equal; lia|exact ND|]. apply nth_error_nth'. lia.
Qed.
Lemma fields_nth l is : text_words l -> Forall (fun i => 0 <= i < Z.of_nat (length l)) is ->
  Fields (Join (B " ") (map (fun i => nth (Z.to_nat i) l []) is)) = map (fun i => nth (Z.to_nat i) l []) is.
Proof.
  intros T F. apply Fields_Join. apply Forall_forall. intros w Hw. apply text_words_ok in T. apply (proj1 (Forall_forall _ _) T).
  apply in_map_iff in Hw as (i & <- & Hi). pose proof (proj1 (Forall_forall _ _) F i Hi). cbv beta in *. apply nth_In. lia.
Qed.
Theorem long_second_name H l e a i t b j : prims_ok H -> entropy_size_ok e -> NoDup l -> text_words l -> (2048 <= length l)%nat ->
  bip39_indices H e = a ++ i :: t :: b -> Z.odd i = true -> j = i \/ j = i - 1 -> 2048 + t < Z.of_nat (length l) ->
  EntropyFromMnemonic H (SetWordList l) (Join (B " ") (map (fun i => nth (Z.to_nat i) l []) (a ++ j :: 2048 + t :: b))) = (e, None).
Proof.
  intros HP He ND T L E O J Lt.
  assert (R : Forall (fun i => 0 <= i < 2048) (bip39_indices H e)) by (apply Forall_forall; intros x Hx; exact (indices_in H e x HP He Hx)).
  pose proof R as R0. rewrite E in R. apply Forall_app in R as [Ra R]. inversion R as [|? ? Ri R']; subst. inversion R' as [|? ? Rt Rb]; subst.
  assert (i <> 0) by (intros ->; discriminate O).
  assert (F : Forall (fun i => 0 <= i < Z.of_nat (length l)) (a ++ j :: 2048 + t :: b)).
  { apply Forall_app. split; [eapply Forall_impl; [|exact Ra]; intros x Hx; cbv beta in *; lia|]. constructor; [lia|]. constructor; [lia|].
    eapply Forall_impl; [|exact Rb]; intros x Hx; cbv beta in *; lia. }
  apply (entropy_of_same H l _ (a ++ j :: 2048 + t :: b) e HP He).
  - rewrite fields_nth by assumption. apply decode_nodup; assumption.
  - rewrite E, !app_length. reflexivity.
  - transitivity (dval (bip39_indices H e) 0); [|apply (dval_small _ R0 0); lia]. rewrite E, !dval_app.
    destruct (dval_small a Ra 0 ltac:(lia)) as [_ Pa]. set (x := dval a 0) in *. clearbody x. change (j :: 2048 + t :: b) with ([j; 2048 + t] ++ b). change (i :: t :: b) with ([i; t] ++ b).
    rewrite !dval_app. f_equal. unfold dval. cbn [fold_left].
    assert (S : forall q y, 0 <= q -> 0 <= y < 2048 -> Z.lor (q * 2048) (y mod 65536) = q * 2048 + y).
    { intros q y Hq Hy. pose proof (decode_step q y Hq Hy) as D. rewrite be_Z_be in D. exact D. }
    rewrite (S x j), (S x i), (S (x * 2048 + i) t) by lia. rewrite (Z.mod_small (2048 + t)) by lia. rewrite step_over by lia. rewrite lor_one by lia.
    rewrite Z.odd_add, Z.odd_mul. change (Z.odd 2048) with false. rewrite andb_false_r. cbn [xorb].
    destruct J as [-> | ->]; [rewrite O; reflexivity|]. rewrite Z.odd_sub, O. change (xorb true (Z.odd 1)) with false. cbv iota. lia.
Qed.

(** A sentence accepted with an entropy of seventeen bytes. *)
Theorem long_entropy H l : prims_ok H -> NoDup l -> text_words l -> (2048 < length l)%nat -> 
  exists m e, EntropyFromMnemonic H (SetWordList l) m = (e, None) /\ length e = 17%nat.
Proof.
  intros HP ND T L. set (E := x01 :: repeat x00 16). set (c := firstChecksumByte H E / 16).
  assert (Hc : 0 <= c < 16).
  { unfold c, firstChecksumByte. pose proof (Zb_range (hd x00 (p_sha256 H E))). split; [apply Z.div_pos; lia|]. apply Z.div_lt_upper_bound; lia. }
  set (is := 2048 :: repeat 0 10 ++ [c]).
  assert (F : Forall (fun i => 0 <= i < Z.of_nat (length l)) is).
  { unfold is. constructor; [lia|]. apply Forall_app. split; [apply Forall_forall; intros x Hx; apply repeat_spec in Hx; lia|]. constructor; [lia|constructor]. }
  exists (Join (B " ") (map (fun i => nth (Z.to_nat i) l []) is)), E. split; [|reflexivity].
  unfold EntropyFromMnemonic, splitMnemonicWords. rewrite fields_nth by assumption. rewrite map_length.
  change (validWordCount (length is)) with true. unfold entropyOfWords.
  rewrite (decode_any l _ is 0 (decode_nodup l is ND F)). rewrite map_length. change (length is) with 12%nat.
  change (checksumMask 12) with 15. change (12 =? 24)%nat with false. cbv iota. change (checksumShift 12) with 16. change (12 / 3 * 4)%nat with 16%nat.
  assert (V : dval is 0 = 2 ^ 132 + c).
  { unfold is. change (2048 :: repeat 0 10 ++ [c]) with ((2048 :: repeat 0 10) ++ [c]). rewrite dval_app.
    replace (dval (2048 :: repeat 0 10) 0) with (2 ^ 121) by (vm_compute; reflexivity). unfold dval. cbn [fold_left].
    pose proof (decode_step (2 ^ 121) c ltac:(lia) ltac:(lia)) as D. rewrite be_Z_be in D. change (p256 2) with 65536 in D. rewrite D. lia. }
  rewrite V. change 15 with (Z.ones 4) at 1. rewrite Z.land_ones by lia. change (2 ^ 4) with 16. change (15 + 1) with 16.
  replace ((2 ^ 132 + c) mod 16) with c by (symmetry; replace (2 ^ 132 + c) with (c + 2 ^ 128 * 16) by lia; rewrite Z.mod_add, Z.mod_small by lia; reflexivity).
  replace ((2 ^ 132 + c) / 16) with (2 ^ 128) by (symmetry; replace (2 ^ 132 + c) with (2 ^ 128 * 16 + c) by lia; rewrite Z.div_add_l, Z.div_small by lia; lia).
  replace (padByteSlice (Z_bytes (2 ^ 128)) 16) with E by (vm_compute; reflexivity). fold c. rewrite Z.eqb_refl. reflexivity.
Qed.
