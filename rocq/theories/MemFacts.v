(** MemFacts.v - lemmas about the memory model. *)
From Verif Require Import Base BaseFacts Prims Bip32Path Bip32Reg Bip32 Mem SpecMem.

Lemma nth_error_firstn_lt {A} (l : list A) n i : (i < n)%nat -> nth_error (firstn n l) i = nth_error l i.
Proof. revert n i. induction l as [|x l IH]; intros [|n] [|i] H; cbn; try reflexivity; try lia. apply IH. lia. Qed.
Lemma nth_error_skipn_ {A} (l : list A) n i : nth_error (skipn n l) i = nth_error l (n + i).
Proof. revert l. induction n as [|n IH]; intros [|x l]; cbn; try reflexivity; [destruct i; reflexivity|apply IH]. Qed.
Lemma nth_error_ext {A} (l m : list A) : (forall i, nth_error l i = nth_error m i) -> l = m.
Proof.
  revert m. induction l as [|x l IH]; intros [|y m] H; [reflexivity|discriminate (H 0%nat)|discriminate (H 0%nat)|].
  f_equal; [assert (E := H 0%nat); injection E as ->; reflexivity|apply IH; intros i; exact (H (S i))].
Qed.
Lemma nth_overwrite at_ d l i : (at_ + length d <= length l)%nat ->
  nth_error (overwrite at_ d l) i = if (Nat.leb at_ i && Nat.ltb i (at_ + length d))%bool then nth_error d (i - at_) else nth_error l i.
Proof.
  intros H. unfold overwrite. destruct (Nat.leb_spec at_ i) as [A|A]; cbn [andb].
  - rewrite nth_error_app2 by (rewrite firstn_length; lia). rewrite firstn_length, Nat.min_l by lia.
    destruct (Nat.ltb_spec i (at_ + length d)) as [C|C].
    + apply nth_error_app1. lia.
    + rewrite nth_error_app2 by lia. rewrite nth_error_skipn_. f_equal. lia.
  - rewrite nth_error_app1 by (rewrite firstn_length; lia). apply nth_error_firstn_lt. exact A.
Qed.
Lemma block_alloc h d b : (b < length h)%nat -> block (fst (alloc h d)) b = block h b.
Proof. intros H. unfold block, alloc. cbn [fst]. apply app_nth1. exact H. Qed.
Lemma block_new h d : block (h ++ [d]) (length h) = d.
Proof. unfold block. rewrite app_nth2 by lia. rewrite Nat.sub_diag. reflexivity. Qed.
Lemma block_old h d b : (b < length h)%nat -> block (h ++ [d]) b = block h b.
Proof. intros H. unfold block. apply app_nth1. exact H. Qed.
Lemma block_write h b at_ d b' : (b < length h)%nat -> block (mwrite h b at_ d) b' = if Nat.eqb b' b then overwrite at_ d (block h b) else block h b'.
Proof.
  intros H. unfold mwrite, block. destruct (Nat.eqb_spec b' b) as [->|N].
  - rewrite app_nth2 by (rewrite firstn_length; lia). rewrite firstn_length, Nat.min_l, Nat.sub_diag by lia. reflexivity.
  - destruct (Nat.lt_ge_cases b' b) as [L|L].
    + rewrite app_nth1 by (rewrite firstn_length; lia). rewrite <- (firstn_skipn b h) at 2. rewrite app_nth1 by (rewrite firstn_length; lia). reflexivity.
    + rewrite app_nth2 by (rewrite firstn_length; lia). rewrite firstn_length, Nat.min_l by lia.
      destruct (b' - b)%nat as [|k] eqn:K; [lia|]. cbn [nth].
      assert (E : forall (l : list bytes) n m, nth n (skipn m l) [] = nth (m + n) l []).
      { intros l n m. revert l. induction m as [|m IH]; intros [|x l]; cbn; try reflexivity; [destruct n; reflexivity|apply IH]. }
      rewrite E. f_equal. lia.
Qed.
Lemma mwrite_length h b at_ d : (b < length h)%nat -> length (mwrite h b at_ d) = length h.
Proof. intros H. unfold mwrite. rewrite app_length. cbn [length]. rewrite firstn_length, skipn_length. lia. Qed.
Lemma byte_write h b at_ d b' i : (b < length h)%nat -> (at_ + length d <= length (block h b))%nat ->
  byte_at (mwrite h b at_ d) b' i = if (Nat.eqb b' b && (Nat.leb at_ i && Nat.ltb i (at_ + length d)))%bool then nth_error d (i - at_) else byte_at h b' i.
Proof.
  intros H L. unfold byte_at. rewrite block_write by exact H. destruct (Nat.eqb_spec b' b) as [->|N]; [|reflexivity].
  apply nth_overwrite. exact L.
Qed.
Lemma nth_sread h s j : nth_error (sread h s) j = if Nat.ltb j (slen s) then byte_at h (sblk s) (soff s + j) else None.
Proof.
  unfold sread, slice, byte_at. replace (soff s + slen s - soff s)%nat with (slen s) by lia.
  destruct (Nat.ltb_spec j (slen s)) as [L|L].
  - rewrite nth_error_firstn_lt by exact L. apply nth_error_skipn_.
  - apply nth_error_None. rewrite firstn_length. lia.
Qed.
Lemma sread_ext h h' s s' : slen s = slen s' -> (forall j, (j < slen s)%nat -> byte_at h (sblk s) (soff s + j) = byte_at h' (sblk s') (soff s' + j)) -> sread h s = sread h' s'.
Proof.
  intros L E. apply nth_error_ext. intros i. rewrite !nth_sread, <- L. destruct (Nat.ltb_spec i (slen s)); [apply E; assumption|reflexivity].
Qed.
Lemma sread_length h s : wf_sl h s -> length (sread h s) = slen s.
Proof. intros (_ & A & C). unfold sread. rewrite slice_length by lia. lia. Qed.
Lemma sread_old h d s : (sblk s < length h)%nat -> sread (h ++ [d]) s = sread h s.
Proof. intros H. unfold sread. rewrite block_old by exact H. reflexivity. Qed.
Lemma wf_old h d s : wf_sl h s -> wf_sl (h ++ [d]) s.
Proof. intros (A & C & D). unfold wf_sl. rewrite app_length, block_old by exact A. repeat split; [lia|exact C|exact D]. Qed.
Lemma sread_new h d n c : n = length d -> sread (h ++ [d]) (mkSl (length h) 0 n c) = d.
Proof. intros ->. unfold sread, slice. cbn [soff slen sblk]. rewrite block_new. cbn [Nat.add skipn]. rewrite Nat.sub_0_r. apply firstn_all. Qed.
Lemma sread_new_prefix h d n c : sread (h ++ [d]) (mkSl (length h) 0 n c) = firstn n d.
Proof. unfold sread, slice. cbn [soff slen sblk]. rewrite block_new. cbn [Nat.add skipn]. rewrite Nat.sub_0_r. reflexivity. Qed.

(** append *)
Lemma append_m_spec spare h s d h' r : wf_sl h s -> append_m spare h s d = (h', r) ->
  sread h' r = sread h s ++ d /\ wf_sl h' r /\ (length h <= length h')%nat /\ slen r = (slen s + length d)%nat /\
  (forall b i, (b < length h)%nat -> byte_at h' b i =
     if (Nat.eqb b (sblk s) && Nat.leb (slen s + length d) (scap s) && (Nat.leb (soff s + slen s) i && Nat.ltb i (soff s + slen s + length d)))%bool
     then nth_error d (i - (soff s + slen s)) else byte_at h b i) /\
  (if Nat.leb (slen s + length d) (scap s) then sblk r = sblk s /\ soff r = soff s else sblk r = length h).
Proof.
  intros W E. pose proof W as (W1 & W2 & W3). pose proof (sread_length h s W) as SL. unfold append_m in E.
  destruct (Nat.leb_spec (slen s + length d) (scap s)) as [L|L].
  - injection E as <- <-. cbn [sblk soff slen scap].
    assert (BW : forall b i, byte_at (mwrite h (sblk s) (soff s + slen s) d) b i =
       if (Nat.eqb b (sblk s) && (Nat.leb (soff s + slen s) i && Nat.ltb i (soff s + slen s + length d)))%bool then nth_error d (i - (soff s + slen s)) else byte_at h b i)
      by (intros b i; apply byte_write; [exact W1|lia]).
    split; [|split; [|split; [|split; [|split]]]].
    + apply nth_error_ext. intros i. rewrite nth_sread. cbn [sblk soff slen]. rewrite BW, Nat.eqb_refl. cbn [andb].
      destruct (Nat.lt_ge_cases i (slen s)) as [I|I].
      * rewrite nth_error_app1 by lia. rewrite nth_sread. replace (Nat.ltb i (slen s + length d)) with true by (symmetry; apply Nat.ltb_lt; lia).
        replace (Nat.leb (soff s + slen s) (soff s + i)) with false by (symmetry; apply Nat.leb_gt; lia). cbn [andb].
        replace (Nat.ltb i (slen s)) with true by (symmetry; apply Nat.ltb_lt; lia). reflexivity.
      * rewrite nth_error_app2 by lia. rewrite SL. replace (Nat.leb (soff s + slen s) (soff s + i)) with true by (symmetry; apply Nat.leb_le; lia). cbn [andb].
        destruct (Nat.ltb_spec i (slen s + length d)) as [J|J].
        -- replace (Nat.ltb (soff s + i) (soff s + slen s + length d)) with true by (symmetry; apply Nat.ltb_lt; lia). f_equal. lia.
        -- symmetry. apply nth_error_None. lia.
    + unfold wf_sl. cbn [sblk soff slen scap]. rewrite mwrite_length, block_write, Nat.eqb_refl by exact W1. rewrite overwrite_length by lia. repeat split; lia.
    + rewrite mwrite_length by exact W1. lia.
    + reflexivity.
    + intros b i Hb. rewrite BW. rewrite andb_true_r. reflexivity.
    + split; reflexivity.
  - unfold alloc in E. injection E as <- <-. cbn [sblk soff slen scap]. split; [|split; [|split; [|split; [|split]]]].
    + rewrite sread_new_prefix. rewrite app_assoc, firstn_app, app_length, SL, Nat.sub_diag. cbn [firstn]. rewrite app_nil_r. apply firstn_all2. rewrite app_length. lia.
    + unfold wf_sl. cbn [sblk soff slen scap]. rewrite block_new, !app_length, repeat_length, SL. cbn [length]. repeat split; lia.
    + rewrite app_length. lia.
    + reflexivity.
    + intros b i Hb. rewrite andb_false_r. cbn [andb]. unfold byte_at. rewrite block_old by exact Hb. reflexivity.
    + reflexivity.
Qed.
Lemma byte_old h d b i : (b < length h)%nat -> byte_at (h ++ [d]) b i = byte_at h b i.
Proof. intros H. unfold byte_at. rewrite block_old by exact H. reflexivity. Qed.

(** AddChecksumDblSha256ToBytes *)
Lemma AddChecksum_m_spec spare H h s : prims_ok H -> wf_sl h s ->
  let '(h', r) := AddChecksumDblSha256ToBytes_m spare H h s in
  sread h' r = AddChecksumDblSha256ToBytes H (sread h s) /\ wf_sl h' r /\ (length h <= length h')%nat /\
  (forall b i, (b < length h)%nat -> byte_at h' b i =
     if (Nat.eqb b (sblk s) && Nat.leb (slen s + 4) (scap s) && (Nat.leb (soff s + slen s) i && Nat.ltb i (soff s + slen s + 4)))%bool
     then nth_error (ChecksumDblSha256 H (sread h s)) (i - (soff s + slen s)) else byte_at h b i) /\
  (if Nat.leb (slen s + 4) (scap s) then sblk r = sblk s /\ soff r = soff s else (length h <= sblk r)%nat).
Proof.
  intros (S & _) W. unfold AddChecksumDblSha256ToBytes_m, ChecksumDblSha256_m, alloc.
  assert (CL : length (ChecksumDblSha256 H (sread h s)) = 4%nat) by (unfold ChecksumDblSha256; rewrite firstn_length, S; reflexivity).
  rewrite sread_new_prefix. change (firstn 4 (p_sha256 H (p_sha256 H (sread h s)))) with (ChecksumDblSha256 H (sread h s)).
  destruct (append_m _ _ _ _) as [h' r] eqn:E. pose proof (proj1 W) as W1.
  apply append_m_spec in E; [|apply wf_old; exact W]. rewrite CL in E. destruct E as (E1 & E2 & E3 & E4 & E5 & E6).
  rewrite sread_old in E1 by exact W1. rewrite app_length in E3, E6. cbn [length] in E3, E6.
  split; [exact E1|]. split; [exact E2|]. split; [lia|]. split.
  - intros b i Hb. rewrite E5 by (rewrite app_length; lia). rewrite byte_old by exact Hb. reflexivity.
  - destruct (Nat.leb (slen s + 4) (scap s)); [exact E6|lia].
Qed.

(** Deserialize *)
Lemma Deserialize_m_spec spare H h s : prims_ok H -> wf_sl h s ->
  let '(h', r) := Deserialize_m spare H h s in
  r = Deserialize H (sread h s) /\ (length h <= length h')%nat /\
  (forall b i, (b < length h)%nat -> byte_at h' b i =
     if (Nat.eqb b (sblk s) && (Nat.ltb (slen s) 82 && Nat.leb 82 (scap s)) && (Nat.leb (soff s + slen s) i && Nat.ltb i (soff s + 82)))%bool
     then Some x00 else byte_at h b i).
Proof.
  intros (S & _) W. pose proof W as (W1 & W2 & W3). pose proof (sread_length h s W) as SL. unfold Deserialize_m, Deserialize. rewrite SL.
  destruct (Nat.eqb_spec (slen s) 82) as [Q|Q]; cbn [negb].
  - unfold ChecksumDblSha256_m, alloc. rewrite sread_new_prefix, sread_old by exact W1.
    assert (P : sread h (mkSl (sblk s) (soff s) 78 (scap s)) = firstn 78 (sread h s)).
    { unfold sread, slice. cbn [sblk soff slen]. rewrite firstn_firstn. f_equal. lia. }
    rewrite P. split; [reflexivity|]. split; [rewrite app_length; lia|]. intros b i Hb. rewrite Q, Nat.ltb_irrefl. cbn [andb]. rewrite andb_false_r. cbn [andb]. apply byte_old. exact Hb.
  - destruct (Nat.ltb_spec (slen s) 82) as [L|L].
    + unfold alloc. rewrite sread_new by (rewrite repeat_length; reflexivity). destruct (append_m _ _ _ _) as [h' r] eqn:E.
      apply append_m_spec in E; [|apply wf_old; exact W]. rewrite repeat_length in E. destruct E as (E1 & _ & E3 & _ & E5 & _).
      rewrite sread_old in E1 by exact W1. rewrite app_length in E3. cbn [length] in E3.
      split; [rewrite E1; reflexivity|]. split; [lia|]. intros b i Hb. rewrite E5 by (rewrite app_length; cbn [length]; lia). rewrite byte_old by exact Hb.
      replace (slen s + (82 - slen s))%nat with 82%nat by lia. replace (soff s + slen s + (82 - slen s))%nat with (soff s + 82)%nat by lia. cbn [andb].
      destruct (_ && _ && _)%bool eqn:C; [|reflexivity]. apply andb_true_iff in C as [_ C]. apply andb_true_iff in C as [C1 C2]. apply Nat.leb_le in C1. apply Nat.ltb_lt in C2.
      rewrite (nth_error_nth' _ x00) by (rewrite repeat_length; lia). f_equal. apply nth_repeat.
    + split; [reflexivity|]. split; [lia|]. intros b i Hb. cbn [andb]. rewrite andb_false_r. reflexivity.
Qed.

(** keys in memory *)
Lemma kslice_wf h k : wf_kptr h k -> wf_sl h (kslice k).
Proof. intros [A C]. unfold wf_sl, kslice. cbn [sblk soff slen scap]. repeat split; [exact A|lia|exact C]. Qed.
Lemma Serialize_m_spec spare H h k : prims_ok H -> wf_kptr h k ->
  let '(h', (r, e)) := Serialize_m spare H h k in
  (e, match r with Some s => sread h' s | None => [] end) = (snd (Serialize H (sread h (kslice k))), fst (Serialize H (sread h (kslice k)))) /\
  (forall b i, (b < length h)%nat -> byte_at h' b i = byte_at h b i) /\
  (forall s, r = Some s -> wf_sl h' s /\ (length h <= sblk s)%nat).
Proof.
  intros HP W. unfold Serialize_m, Serialize. destruct (forallb _ _); [split; [reflexivity|]; split; [reflexivity|intros s E; discriminate]|].
  pose proof (AddChecksum_m_spec spare H h (kslice k) HP (kslice_wf h k W)) as A. destruct (AddChecksumDblSha256ToBytes_m _ _ _ _) as [h' r].
  destruct A as (A1 & A2 & A3 & A4 & A5). change (Nat.leb (slen (kslice k) + 4) (scap (kslice k))) with false in A4, A5. cbn [fst snd].
  split; [rewrite A1; reflexivity|]. split.
  - intros b i Hb. rewrite A4 by exact Hb. rewrite andb_false_r. reflexivity.
  - intros s E. injection E as <-. split; [exact A2|exact A5].
Qed.
Lemma set_field_m_spec lo hi v h k : wf_kptr h k -> (lo <= hi <= 78)%nat -> length v = (hi - lo)%nat ->
  sread (set_field_m lo hi v h k) (kslice k) = copy_at lo hi v (sread h (kslice k)) /\
  (forall b i, ~ (b = kblk k /\ koff k + lo <= i < koff k + hi)%nat -> byte_at (set_field_m lo hi v h k) b i = byte_at h b i).
Proof.
  intros W L V. pose proof (kslice_wf h k W) as W'. destruct W as [W1 W2]. pose proof (sread_length h _ W') as SL. unfold set_field_m, copy_at. rewrite firstn_all2 by lia.
  assert (BW := byte_write h (kblk k) (koff k + lo) v). split.
  - apply nth_error_ext. intros i. rewrite nth_sread, nth_overwrite by (rewrite SL; cbn [kslice slen]; lia). rewrite nth_sread. cbn [kslice slen sblk soff].
    rewrite BW by lia. rewrite Nat.eqb_refl. cbn [andb]. rewrite V.
    destruct (Nat.ltb_spec i 78) as [I|I].
    + replace (Nat.leb (koff k + lo) (koff k + i)) with (Nat.leb lo i) by (destruct (Nat.leb_spec lo i), (Nat.leb_spec (koff k + lo) (koff k + i)); try reflexivity; lia).
      replace (Nat.ltb (koff k + i) (koff k + lo + (hi - lo))) with (Nat.ltb i (lo + (hi - lo))) by (destruct (Nat.ltb_spec i (lo + (hi - lo))), (Nat.ltb_spec (koff k + i) (koff k + lo + (hi - lo))); try reflexivity; lia).
      destruct (_ && _)%bool; [|reflexivity]. f_equal. lia.
    + replace (Nat.ltb i (lo + (hi - lo))) with false by (symmetry; apply Nat.ltb_ge; lia). rewrite andb_false_r. reflexivity.
  - intros b i N. rewrite BW by lia. destruct (Nat.eqb_spec b (kblk k)) as [->|]; cbn [andb]; [|reflexivity].
    destruct (Nat.leb_spec (koff k + lo) i), (Nat.ltb_spec i (koff k + lo + length v)); cbn [andb]; try reflexivity. exfalso. apply N. lia.
Qed.
Lemma block_write_len h b at_ d b' : (b < length h)%nat -> (at_ + length d <= length (block h b))%nat -> length (block (mwrite h b at_ d) b') = length (block h b').
Proof. intros H L. rewrite block_write by exact H. destruct (Nat.eqb_spec b' b) as [->|]; [apply overwrite_length; exact L|reflexivity]. Qed.
Lemma getIntermediary_m_spec spare H h k i : prims_ok H -> wf_kptr h k ->
  let '(h', r) := getIntermediary_m spare H h k i in
  sread h' r = getIntermediary H (sread h (kslice k)) i /\ (length h <= sblk r)%nat /\
  (forall b j, (b < length h)%nat -> byte_at h' b j = byte_at h b j).
Proof.
  intros (_ & _ & HM & _) W. pose proof (sread_length h _ (kslice_wf h k W)) as SL. cbn [kslice slen] in SL. unfold getIntermediary_m, getIntermediary, alloc.
  set (K := sread h (kslice k)) in *. set (u := uint32Bytes i).
  assert (UL : length u = 4%nat) by (unfold u, uint32Bytes; apply Z_be_length).
  set (h2 := (h ++ [u]) ++ [repeat x00 33]).
  assert (L2 : length h2 = S (S (length h))) by (unfold h2; rewrite !app_length; cbn; lia).
  replace (length (h ++ [u])) with (S (length h)) by (rewrite app_length; cbn; lia).
  assert (B2 : block h2 (S (length h)) = repeat x00 33) by (unfold h2; replace (S (length h)) with (length (h ++ [u])) by (rewrite app_length; cbn; lia); apply block_new).
  (* the three ways of filling the array *)
  set (data := if i >=? FirstHardenedChild then copy_at 1 33 (slice 46 78 K) (repeat x00 33)
               else if IsPrivate K then copy_at 0 33 (publicKeyForPrivateKey (slice 46 78 K)) (repeat x00 33)
               else copy_at 0 33 (skipn 45 K) (repeat x00 33)).
  set (h3 := if i >=? FirstHardenedChild then _ else _).
  assert (F : exists at_ d, (at_ + length d <= 33)%nat /\ h3 = mwrite h2 (S (length h)) at_ d /\ data = overwrite at_ d (repeat x00 33)).
  { unfold h3, data. destruct (i >=? FirstHardenedChild); [|destruct (IsPrivate K) eqn:IP].
    - exists 1%nat, (slice 46 78 K). split; [rewrite slice_length by lia; lia|]. split; [reflexivity|]. unfold copy_at. rewrite firstn_all2 by (rewrite slice_length; lia). reflexivity.
    - exists 0%nat, (firstn 33 (publicKeyForPrivateKey (slice 46 78 K))). split; [rewrite firstn_length; lia|]. split; reflexivity.
    - exists 0%nat, (skipn 45 K). split; [rewrite skipn_length; lia|]. split; [reflexivity|]. unfold copy_at. rewrite firstn_all2 by (rewrite skipn_length; lia). reflexivity. }
  destruct F as (at_ & d & FL & F3 & FD). rewrite F3. clear F3.
  assert (DL : length data = 33%nat) by (rewrite FD, overwrite_length by (rewrite repeat_length; exact FL); apply repeat_length).
  assert (BB : block (mwrite h2 (S (length h)) at_ d) (S (length h)) = data) by (rewrite block_write, Nat.eqb_refl, B2 by lia; symmetry; exact FD).
  assert (W3 : wf_sl (mwrite h2 (S (length h)) at_ d) (mkSl (S (length h)) 0 33 33)).
  { unfold wf_sl. cbn [sblk soff slen scap]. rewrite mwrite_length by lia. rewrite BB, DL. repeat split; lia. }
  assert (RU : sread (mwrite h2 (S (length h)) at_ d) (mkSl (length h) 0 4 4) = u).
  { unfold sread, slice. cbn [sblk soff slen]. rewrite block_write by lia. replace (Nat.eqb (length h) (S (length h))) with false by (symmetry; apply Nat.eqb_neq; lia).
    unfold h2. rewrite block_old by (rewrite app_length; cbn; lia). rewrite block_new. cbn [Nat.add skipn]. rewrite Nat.sub_0_r. apply firstn_all2. lia. }
  rewrite RU. destruct (append_m _ _ _ u) as [h4 dn] eqn:E. apply append_m_spec in E; [|exact W3]. destruct E as (E1 & E2 & E3 & _ & E5 & _).
  rewrite mwrite_length in E3, E5 by lia. rewrite L2 in E3, E5.
  assert (RD : sread (mwrite h2 (S (length h)) at_ d) (mkSl (S (length h)) 0 33 33) = data).
  { unfold sread, slice. cbn [sblk soff slen]. rewrite BB. cbn [Nat.add skipn]. rewrite Nat.sub_0_r. apply firstn_all2. lia. }
  rewrite RD in E1. rewrite E1. split; [rewrite sread_new by (rewrite HM; reflexivity); reflexivity|]. cbn [sblk]. split; [lia|].
  intros b j Hb. rewrite byte_old by lia. rewrite E5 by lia.
  replace (Nat.eqb b (sblk {| sblk := S (length h); soff := 0; slen := 33; scap := 33 |})) with false by (symmetry; cbn [sblk]; apply Nat.eqb_neq; lia). cbn [andb].
  rewrite byte_write by (rewrite ?B2, ?repeat_length; lia). replace (Nat.eqb b (S (length h))) with false by (symmetry; apply Nat.eqb_neq; lia). cbn [andb].
  unfold h2. rewrite byte_old by (rewrite app_length; cbn; lia). apply byte_old. exact Hb.
Qed.
