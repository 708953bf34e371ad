(** Bip39Facts2.v - last-word count, error classes, white space, byte arrays, seeds. *)
From Verif Require Import Base BaseFacts GoStr GoStrFacts Prims Bip39 SpecBip39 Bip39Facts.
From Coq Require Import ZifyBool ZifyNat ZifyN.

(** ** C04 *)
Lemma bits_div2048 B i k : (k <= 8)%nat -> 0 <= i ->
  (B * 2048 + i) / 2 ^ Z.of_nat k = B * 2 ^ (11 - Z.of_nat k) + i / 2 ^ Z.of_nat k /\
  (B * 2048 + i) mod 2 ^ Z.of_nat k = i mod 2 ^ Z.of_nat k.
Proof.
  intros Hk Hi. assert (P : 0 < 2 ^ Z.of_nat k) by (apply Z.pow_pos_nonneg; lia).
  assert (E : 2048 = 2 ^ (11 - Z.of_nat k) * 2 ^ Z.of_nat k)
    by (rewrite <- Z.pow_add_r by lia; replace (11 - Z.of_nat k + Z.of_nat k) with 11 by lia; reflexivity).
  rewrite E at 1 2. rewrite Z.mul_assoc. split.
  - rewrite Z.div_add_l by lia. reflexivity.
  - rewrite Z.add_comm, Z.mod_add by lia. reflexivity.
Qed.

(** In proofs; for bip39/bip39.go:170-249. *)
Definition last_f (H : Prims) (k : nat) (B q : Z) : Z :=
  firstChecksumByte H (Z_be (4 * k) (B * 2 ^ (11 - Z.of_nat k) + q)) / 2 ^ (8 - Z.of_nat k).
Lemma last_f_range H k B q : (k <= 8)%nat -> 0 <= last_f H k B q < 2 ^ Z.of_nat k.
Proof.
  intros Hk. unfold last_f, firstChecksumByte. set (x := Zb _).
  assert (0 <= x < 256) by (subst x; apply Zb_range).
  assert (0 < 2 ^ (8 - Z.of_nat k)) by (apply Z.pow_pos_nonneg; lia).
  split; [apply Z.div_pos; lia|]. apply Z.div_lt_upper_bound; [lia|]. rewrite <- Z.pow_add_r by lia.
  replace (8 - Z.of_nat k + Z.of_nat k) with 8 by lia. lia.
Qed.
Lemma cs_ok_last H k B i : (4 <= k <= 8)%nat -> 0 <= i < 2048 ->
  cs_ok H k (B * 2048 + i) = true <->
  exists q, 0 <= q < 2 ^ (11 - Z.of_nat k) /\ i = q * 2 ^ Z.of_nat k + last_f H k B q.
Proof.
  intros Hk Hi. destruct (bits_div2048 B i k ltac:(lia) ltac:(lia)) as [D M].
  unfold cs_ok, dec_entropy. rewrite D, M, Z.eqb_eq.
  assert (P : 0 < 2 ^ Z.of_nat k) by (apply Z.pow_pos_nonneg; lia).
  fold (last_f H k B (i / 2 ^ Z.of_nat k)). split.
  - intros E. exists (i / 2 ^ Z.of_nat k). split.
    + split; [apply Z.div_pos; lia|]. apply Z.div_lt_upper_bound; [lia|].
      rewrite <- Z.pow_add_r by lia. replace (Z.of_nat k + (11 - Z.of_nat k)) with 11 by lia. lia.
    + rewrite <- E. pose proof (Z.div_mod i (2 ^ Z.of_nat k)). lia.
  - intros (q & Hq & E). pose proof (last_f_range H k B q ltac:(lia)) as R.
    assert (Eq : i / 2 ^ Z.of_nat k = q) by (rewrite E, Z.div_add_l, (Z.div_small (last_f _ _ _ _)) by lia; lia).
    rewrite Eq, E, Z.add_comm, Z.mod_add, Z.mod_small by lia. reflexivity.
Qed.

Lemma ofidx_app2 a b : ofidx (a ++ b) = ofidx a * 2048 ^ Z.of_nat (length b) + ofidx b.
Proof.
  induction b as [|x b IH] using rev_ind.
  - rewrite app_nil_r. unfold ofidx at 3. simpl. lia.
  - rewrite app_assoc, !ofidx_app, IH, app_length. cbn [length].
    replace (Z.of_nat (length b + 1)) with (Z.succ (Z.of_nat (length b))) by lia.
    rewrite Z.pow_succ_r by lia. ring.
Qed.

Lemma NoDup_map_in {A B} (f : A -> B) l :
  (forall x y, In x l -> In y l -> f x = f y -> x = y) -> NoDup l -> NoDup (map f l).
Proof.
  intros Hf ND. induction ND as [|x l Hx ND IH]; cbn [map]; constructor.
  - intros Hin. apply in_map_iff in Hin as (y & E & Hy). apply Hx.
    rewrite (Hf x y); [exact Hy|left; reflexivity|right; exact Hy|symmetry; exact E].
  - apply IH. intros a b Ha Hb. apply Hf; right; assumption.
Qed.

Theorem last_word_count H wl p n : prims_ok H -> good_list wl -> text_words wl ->
  In n [12; 15; 18; 21; 24]%nat -> length p = (n - 1)%nat -> Forall (fun w => In w wl) p ->
  exists L, NoDup L /\ length L = (2 ^ (11 - n / 3))%nat /\
    forall w, In w L <-> (In w wl /\ IsMnemonicValid H (SetWordList wl) (Join (B " ") (p ++ [w])) = true).
Proof.
  intros HP HG HT Hn Lp Hp. pose proof HG as [HL ND].
  assert (exists k, (4 <= k <= 8)%nat /\ n = (3 * k)%nat) as (k & Hk & ->).
  { simpl in Hn. exists (n / 3)%nat. destruct Hn as [<-|[<-|[<-|[<-|[<-|[]]]]]]; cbn; lia. }
  destruct (decode_idx_exists wl p Hp) as [is HD].
  set (b0 := ofidx is).
  assert (Key : forall j w, nth_error wl j = Some w ->
     IsMnemonicValid H (SetWordList wl) (Join (B " ") (p ++ [w])) = cs_ok H k (b0 * 2048 + Z.of_nat j)).
  { intros j w Hj. unfold IsMnemonicValid, EntropyFromMnemonic, splitMnemonicWords.
    assert (Hw : In w wl) by (eapply nth_error_In; exact Hj).
    assert (LL : length (p ++ [w]) = (3 * k)%nat) by (rewrite app_length; cbn [length]; lia).
    rewrite Fields_Join.
    2:{ apply text_words_ok in HT. apply Forall_forall. intros v Hv.
        apply (proj1 (Forall_forall _ _) HT). apply in_app_iff in Hv as [Hv|[<-|[]]]; [|exact Hw].
        apply (proj1 (Forall_forall _ _) Hp v Hv). }
    rewrite LL. assert (V : validWordCount (3 * k) = true) by (apply validWordCount_spec; exists k; lia).
    rewrite V.
    assert (HD' : decode_idx wl (p ++ [w]) (is ++ [Z.of_nat j])).
    { apply Forall2_app; [exact HD|]. constructor; [|constructor]. apply last_pos_nodup; assumption. }
    rewrite (entropyOfWords_eq H wl _ _ k Hk ltac:(lia) LL HD'). rewrite ofidx_app. fold b0.
    destruct (cs_ok H k _); reflexivity. }
  set (g := fun q => q * 2 ^ Z.of_nat k + last_f H k b0 q).
  assert (E11 : 2 ^ (11 - Z.of_nat k) * 2 ^ Z.of_nat k = 2048)
    by (rewrite <- Z.pow_add_r by lia; replace (11 - Z.of_nat k + Z.of_nat k) with 11 by lia; reflexivity).
  assert (P : 0 < 2 ^ Z.of_nat k) by (apply Z.pow_pos_nonneg; lia).
  assert (P2 : 0 < 2 ^ (11 - Z.of_nat k)) by (apply Z.pow_pos_nonneg; lia).
  assert (gr : forall q, 0 <= q < 2 ^ (11 - Z.of_nat k) -> 0 <= g q < 2048).
  { intros q Hq. unfold g. pose proof (last_f_range H k b0 q ltac:(lia)). nia. }
  assert (ginj : forall q r, g q = g r -> q = r).
  { intros q r E. unfold g in E. pose proof (last_f_range H k b0 q ltac:(lia)) as R1.
    pose proof (last_f_range H k b0 r ltac:(lia)) as R2.
    apply (f_equal (fun x => x / 2 ^ Z.of_nat k)) in E. rewrite !Z.div_add_l in E by lia.
    rewrite !Z.div_small in E by lia. lia. }
  set (N := Z.to_nat (2 ^ (11 - Z.of_nat k))).
  exists (map (fun q => nth (Z.to_nat (g (Z.of_nat q))) wl []) (seq 0 N)).
  split; [|split].
  - apply NoDup_map_in; [|apply seq_NoDup]. intros q r Hq Hr E. apply in_seq in Hq, Hr.
    pose proof (gr (Z.of_nat q) ltac:(lia)). pose proof (gr (Z.of_nat r) ltac:(lia)).
    apply (proj1 (NoDup_nth wl []) ND) in E; [|lia|lia].
    assert (g (Z.of_nat q) = g (Z.of_nat r)) as E' by lia. apply ginj in E'. lia.
  - rewrite map_length, seq_length. unfold N.
    replace (3 * k / 3)%nat with k by (rewrite Nat.mul_comm, Nat.div_mul by lia; reflexivity).
    clear -Hk. do 9 (destruct k as [|k]; [try lia; reflexivity|]). lia.
  - intros w. rewrite in_map_iff. split.
    + intros (q & <- & Hq). apply in_seq in Hq. pose proof (gr (Z.of_nat q) ltac:(lia)) as R.
      split; [apply nth_In; lia|].
      rewrite (Key (Z.to_nat (g (Z.of_nat q)))) by (apply nth_error_nth'; lia).
      rewrite Z2Nat.id by lia. apply cs_ok_last; [exact Hk|exact R|]. exists (Z.of_nat q). split; [lia|reflexivity].
    + intros [Hw V]. apply In_nth_error in Hw as [j Hj]. rewrite (Key j w Hj) in V.
      assert (j < 2048)%nat by (rewrite <- HL; apply nth_error_Some; congruence).
      apply cs_ok_last in V; [|exact Hk|lia]. destruct V as (q & Hq & E).
      exists (Z.to_nat q). split; [|apply in_seq; lia].
      rewrite Z2Nat.id by lia. fold (g q) in E. rewrite <- E, Nat2Z.id. apply nth_error_nth. exact Hj.
Qed.

(** ** C06 *)
Lemma bits11_length i : length (bits11 i) = 11%nat. Proof. reflexivity. Qed.
Lemma testbit_high x n : 0 <= n -> 0 <= x < 2 ^ (n + 1) -> x = (if Z.testbit x n then 1 else 0) * 2 ^ n + x mod 2 ^ n.
Proof.
  intros Hn Hx. assert (P : 0 < 2 ^ n) by (apply Z.pow_pos_nonneg; lia).
  assert (D : x / 2 ^ n = 0 \/ x / 2 ^ n = 1).
  { assert (0 <= x / 2 ^ n < 2); [|lia]. split; [apply Z.div_pos; lia|].
    apply Z.div_lt_upper_bound; [lia|]. rewrite Z.add_1_r, Z.pow_succ_r in Hx by lia. lia. }
  pose proof (Z.div_mod x (2 ^ n) ltac:(lia)) as E.
  rewrite Z.testbit_odd, Z.shiftr_div_pow2 by lia.
  destruct D as [D|D]; rewrite D in *; [change (Z.odd 0) with false|change (Z.odd 1) with true]; cbv iota; lia.
Qed.
(** In proofs; for bip39/bip39.go:170-249. *)
Fixpoint bitsn (n : nat) (x : Z) : list bool :=
  match n with O => [] | S k => Z.testbit x (Z.of_nat k) :: bitsn k x end.
Lemma bitsn_length n x : length (bitsn n x) = n.
Proof. induction n as [|n IH]; simpl; [reflexivity|rewrite IH; reflexivity]. Qed.
Lemma bitsn_val n x : bits_val (bitsn n x) = x mod 2 ^ Z.of_nat n.
Proof.
  induction n as [|n IH]; [rewrite Z.mod_1_r; reflexivity|].
  cbn [bitsn]. rewrite bits_val_cons, bitsn_length, IH.
  set (y := x mod 2 ^ Z.of_nat (S n)).
  assert (P : 0 < 2 ^ Z.of_nat n) by (apply Z.pow_pos_nonneg; lia).
  assert (P2 : 2 ^ Z.of_nat (S n) = 2 ^ Z.of_nat n * 2)
    by (rewrite Nat2Z.inj_succ, Z.pow_succ_r by lia; ring).
  assert (Hy : 0 <= y < 2 ^ (Z.of_nat n + 1)).
  { unfold y. replace (Z.of_nat n + 1) with (Z.of_nat (S n)) by lia. apply Z.mod_pos_bound. lia. }
  rewrite (testbit_high y (Z.of_nat n)) by lia.
  assert (T : Z.testbit y (Z.of_nat n) = Z.testbit x (Z.of_nat n))
    by (unfold y; apply Z.mod_pow2_bits_low; lia).
  rewrite T. f_equal. unfold y. rewrite P2. rewrite Z.rem_mul_r by lia.
  rewrite Z.mul_comm, Z.mod_add, Z.mod_mod by lia. reflexivity.
Qed.
Lemma bits_val_inj a b : length a = length b -> bits_val a = bits_val b -> a = b.
Proof.
  revert b; induction a as [|x a IH]; intros [|y b] L E; try discriminate L; [reflexivity|].
  injection L as L. rewrite !bits_val_cons, <- L in E.
  pose proof (bits_val_range a) as Ra. pose proof (bits_val_range b) as Rb. rewrite <- L in Rb.
  assert (x = y) as <- by (destruct x, y; try reflexivity; lia).
  f_equal. apply IH; [exact L|lia].
Qed.
Lemma bits11_val i : 0 <= i < 2048 -> bits_val (bits11 i) = i.
Proof. intros H. change (bits11 i) with (bitsn 11 i). rewrite bitsn_val. apply Z.mod_small. exact H. Qed.
Lemma bits11s_length is : length (flat_map bits11 is) = (11 * length is)%nat.
Proof. induction is as [|i is IH]; [reflexivity|]. cbn [flat_map]. rewrite app_length, bits11_length, IH. simpl length. lia. Qed.
Lemma bits11s_val is : Forall (fun i => 0 <= i < 2048) is -> bits_val (flat_map bits11 is) = ofidx is.
Proof.
  intros H. induction is as [|x l IH] using rev_ind; [reflexivity|].
  apply Forall_app in H as [H1 H2]. inversion H2; subst.
  rewrite flat_map_app, bits_val_app, ofidx_app, (IH H1). cbn [flat_map]. rewrite app_nil_r, bits11_length, bits11_val by assumption.
  reflexivity.
Qed.

Lemma decode_idx_positions wl ws is : NoDup wl -> (length wl <= 2048)%nat ->
  decode_idx wl ws is -> Forall2 (fun w i => 0 <= i < 2048 /\ nth_error wl (Z.to_nat i) = Some w) ws is.
Proof.
  intros ND HL HD. induction HD as [|w i ws is Hw HD IH]; constructor; [|exact IH].
  apply last_pos_some in Hw as [R N]. rewrite Z.sub_0_r in N. split; [lia|exact N].
Qed.
Lemma positions_decode wl ws is : NoDup wl ->
  Forall2 (fun w i => 0 <= i < 2048 /\ nth_error wl (Z.to_nat i) = Some w) ws is -> decode_idx wl ws is.
Proof.
  intros ND HD. induction HD as [|w i ws is [R N] HD IH]; constructor; [|exact IH].
  rewrite (last_pos_nodup wl _ w ND N). f_equal. lia.
Qed.

Theorem error_classes H wl m : prims_ok H -> good_list wl ->
  let ws := Fields m in
  let r := EntropyFromMnemonic H (SetWordList wl) m in
  (~ In (length ws) [12; 15; 18; 21; 24]%nat -> r = ([], Some ErrInvalidMnemonic)) /\
  (In (length ws) [12; 15; 18; 21; 24]%nat -> forall p w q, ws = p ++ w :: q ->
     Forall (fun v => In v wl) p -> ~ In w wl -> r = ([], Some (ErrWord w))) /\
  (In (length ws) [12; 15; 18; 21; 24]%nat -> forall is, sentence_indices wl ws is ->
     let k := (length ws / 3)%nat in
     let bits := flat_map bits11 is in
     exists e, bits_of e = firstn (32 * k) bits /\
       (firstn k (bits_of (p_sha256 H e)) = skipn (32 * k) bits -> r = (e, None)) /\
       (firstn k (bits_of (p_sha256 H e)) <> skipn (32 * k) bits -> r = ([], Some ErrChecksumIncorrect))) /\
  ((exists p w q, ws = p ++ w :: q /\ Forall (fun v => In v wl) p /\ ~ In w wl) \/ exists is, sentence_indices wl ws is).
Proof.
  intros HP HG ws r. pose proof HG as [HL ND].
  assert (CN : forall n, In n [12; 15; 18; 21; 24]%nat <-> validWordCount n = true).
  { intros n. rewrite validWordCount_spec. split.
    - intros Hin. simpl in Hin. destruct Hin as [<-|[<-|[<-|[<-|[<-|[]]]]]];
        [exists 4%nat|exists 5%nat|exists 6%nat|exists 7%nat|exists 8%nat]; lia.
    - intros (k & Hk & ->). simpl. lia. }
  split; [|split; [|split]].
  - intros N. unfold r, EntropyFromMnemonic, splitMnemonicWords. fold ws.
    destruct (validWordCount (length ws)) eqn:V; [|reflexivity]. apply CN in V. contradiction.
  - intros C p w q E Hp Hw. apply CN in C. unfold r, EntropyFromMnemonic, splitMnemonicWords. fold ws.
    rewrite C. unfold entropyOfWords. rewrite (decode_words_bad wl ws w); [reflexivity|].
    exists p, q. auto.
  - intros C is HS. apply CN in C. intros k bits.
    assert (Er : r = entropyOfWords H (SetWordList wl) ws)
      by (unfold r, EntropyFromMnemonic, splitMnemonicWords; fold ws; rewrite C; reflexivity).
    apply validWordCount_spec in C as (k' & Hk & Hn).
    assert (Ek : k = k') by (unfold k; rewrite Hn, Nat.mul_comm, Nat.div_mul by lia; reflexivity).
    rewrite <- Ek in *. clear Ek k'. clearbody k.
    apply positions_decode in HS; [|exact ND].
    rewrite (entropyOfWords_eq H wl ws is k Hk ltac:(lia) Hn HS) in Er.
    pose proof (decode_idx_range wl ws is ltac:(lia) HS) as R. pose proof (ofidx_range is R) as RO.
    pose proof (Forall2_length _ _ _ HS) as LL. rewrite <- LL, Hn in RO.
    pose proof (bits11s_val is R) as BV. fold bits in BV.
    pose proof (bits11s_length is) as BL. fold bits in BL. rewrite <- LL, Hn in BL.
    rewrite <- BV in *. clear BV.
    set (e := dec_entropy k (bits_val bits)) in *.
    assert (P : 0 < 2 ^ Z.of_nat k) by (apply Z.pow_pos_nonneg; lia).
    assert (S : bits_val bits = bits_val (firstn (32 * k) bits) * 2 ^ Z.of_nat k + bits_val (skipn (32 * k) bits)).
    { rewrite <- (firstn_skipn (32 * k) bits) at 1. rewrite bits_val_app, skipn_length, BL.
      do 3 f_equal. lia. }
    pose proof (bits_val_range (skipn (32 * k) bits)) as RS. rewrite skipn_length, BL in RS.
    replace (11 * (3 * k) - 32 * k)%nat with k in RS by lia.
    assert (D : bits_val bits / 2 ^ Z.of_nat k = bits_val (firstn (32 * k) bits))
      by (rewrite S, Z.div_add_l, (Z.div_small (bits_val (skipn _ _))) by lia; lia).
    assert (M : bits_val bits mod 2 ^ Z.of_nat k = bits_val (skipn (32 * k) bits))
      by (rewrite S, Z.add_comm, Z.mod_add, Z.mod_small by lia; reflexivity).
    assert (Ce : firstChecksumByte H e / 2 ^ (8 - Z.of_nat k) = bits_val (firstn k (bits_of (p_sha256 H e)))).
    { destruct (dec_entropy_size k (bits_val bits) Hk) as [Se Cz]. fold e in Se, Cz.
      pose proof (full_eq H e HP Se) as F. rewrite Cz in F. unfold full, bip39_bits in F.
      rewrite div_8_32 in F. fold (csz e) in F. rewrite Cz in F.
      rewrite bits_val_app, bits_val_bits_of, firstn_length, bits_of_length, (sha_len H e HP) in F.
      replace (Nat.min k (8 * 32)) with k in F by lia. lia. }
    exists e. split; [|split].
    + apply bits_val_inj.
      * rewrite bits_of_length, firstn_length, BL. unfold e, dec_entropy. rewrite Z_be_length. lia.
      * rewrite bits_val_bits_of. unfold e, dec_entropy. rewrite be_Z_be, Z.mod_small; [exact D|].
        apply dec_range. exact RO.
    + intros E. assert (T : cs_ok H k (bits_val bits) = true).
      { unfold cs_ok. fold e. rewrite M, Ce, E. apply Z.eqb_refl. }
      rewrite T in Er. exact Er.
    + intros E. assert (T : cs_ok H k (bits_val bits) = false).
      { unfold cs_ok. fold e. rewrite M, Ce. apply Z.eqb_neq. intros Q. apply E. symmetry.
        apply bits_val_inj; [|exact Q].
        rewrite skipn_length, firstn_length, bits_of_length, BL, (sha_len H e HP). lia. }
      rewrite T in Er. exact Er.
  - destruct (known_or_unknown wl ws) as [K|(w & p & q & E & Hp & Hw)].
    + right. destruct (decode_idx_exists wl ws K) as [is HD]. exists is.
      apply decode_idx_positions; [exact ND|lia|exact HD].
    + left. exists p, w, q. auto.
Qed.

(** ** C05 *)
Theorem byte_array_raw H st m : MnemonicToByteArray H st m true = EntropyFromMnemonic H st m \/
  exists e, snd (EntropyFromMnemonic H st m) = Some e /\ MnemonicToByteArray H st m true = ([], Some e).
Proof.
  unfold MnemonicToByteArray. destruct (EntropyFromMnemonic H st m) as [e [x|]]; [right; exists x|left]; auto.
Qed.
Lemma EntropyFromMnemonic_err_nil H st m e x : EntropyFromMnemonic H st m = (e, Some x) -> e = [].
Proof.
  unfold EntropyFromMnemonic. destruct (splitMnemonicWords m) as [ws [|]].
  - unfold entropyOfWords. destruct (decode_words _ _ _) as [b|y].
    + cbv zeta.
      match goal with |- (if ?c then _ else _) = _ -> _ => destruct c end; intros E; [discriminate E|injection E; auto].
    + intros E; injection E; auto.
  - intros E; injection E; auto.
Qed.
Theorem byte_array_raw_eq H st m : MnemonicToByteArray H st m true = EntropyFromMnemonic H st m.
Proof.
  unfold MnemonicToByteArray. destruct (EntropyFromMnemonic H st m) as [e [x|]] eqn:E; [|reflexivity].
  rewrite (EntropyFromMnemonic_err_nil _ _ _ _ _ E). reflexivity.
Qed.

(** Size requested by the code for a text split into n pieces. *)
(** In proofs; for bip39/bip39.go:170-249. *)
Definition ba_size (n : Z) : nat := Z.to_nat ((n * 11 - (n * 11) mod 32) / 8 + 1).
Lemma byte_array_general H wl m e : prims_ok H -> good_list wl ->
  EntropyFromMnemonic H (SetWordList wl) m = (e, None) ->
  MnemonicToByteArray H (SetWordList wl) m false =
  (repeat x00 (ba_size (Z.of_nat (length (Split x20 m))) - nbytes (full H e)) ++ Z_bytes (full H e), None).
Proof.
  intros HP HG E. unfold MnemonicToByteArray. rewrite E. cbn match. f_equal.
  apply EntropyFromMnemonic_iff in E as [He _]; [|assumption|assumption].
  unfold padByteSlice, ba_size.
  assert (A : addChecksum H e = Z_bytes (full H e)).
  { pose proof (be_addChecksum H e HP He) as A. unfold addChecksum in *.
    set (v := addChecksum_loop _ _ _ _) in *. f_equal. rewrite <- A.
    assert (0 <= v).
    { unfold v. pose proof (be_Z_range e). rewrite addChecksum_loop_spec by lia.
      match goal with |- context [bits_val ?l] => pose proof (bits_val_range l) end.
      pose proof (Z.pow_nonneg 2 (Z.of_nat (length e / 4))). nia. }
    rewrite be_Z_bytes by assumption. reflexivity. }
  rewrite A, Z_bytes_length. reflexivity.
Qed.
Theorem byte_array_spaces H wl e m : prims_ok H -> good_list wl -> text_words wl -> entropy_size_ok e ->
  m = Join (B " ") (bip39_words H wl e) ->
  exists arr, MnemonicToByteArray H (SetWordList wl) m false = (arr, None) /\ length arr = S (length e) /\
    bits_of arr = repeat false (8 - length e / 4) ++ bip39_bits H e.
Proof.
  intros HP HG HT He ->.
  set (m := Join (B " ") (bip39_words H wl e)).
  assert (E : EntropyFromMnemonic H (SetWordList wl) m = (e, None)).
  { apply EntropyFromMnemonic_iff; [assumption|assumption|]. split; [exact He|]. apply Fields_bip39; assumption. }
  rewrite (byte_array_general H wl m e HP HG E).
  pose proof (bip39_words_length H wl e HP He) as LW.
  destruct (size_cs e He) as (k & Hk & Hl & Hc).
  assert (SP : Split x20 m = bip39_words H wl e).
  { apply Split_Join.
    - intros C. rewrite C in LW. cbn [length] in LW. fold (csz e) in LW. lia.
    - apply Forall_forall. intros w Hw.
      apply (bip39_words_in H wl e w HP HG He) in Hw. apply (proj1 (Forall_forall _ _) HT) in Hw.
      apply fields_word_ok in Hw. destruct (ContainsB x20 w) eqn:CB; [exfalso|reflexivity].
      unfold ContainsB in CB. apply existsb_exists in CB as (b & Hb & Eb). apply byte_eqb_spec in Eb as <-.
      apply in_split in Hb as (u & v & ->). unfold word_ok in Hw.
      destruct (u ++ x20 :: v) as [|a t] eqn:Ea; [discriminate|]. rewrite <- Ea in Hw. clear Ea a t.
      rewrite runes_of_app, runes_of_space in Hw by apply x20_noncont.
      unfold nonspace in Hw. rewrite forallb_app in Hw. cbn [forallb snd negb] in Hw.
      rewrite andb_false_r in Hw. discriminate. }
  assert (BS : ba_size (Z.of_nat (length (Split x20 m))) = S (length e)).
  { rewrite SP, LW. fold (csz e). rewrite Hc, Hl. clear -Hk.
    do 9 (destruct k as [|k]; [try lia; reflexivity|]). lia. }
  rewrite BS. pose proof (full_range H e HP He) as FR. rewrite Hc, pow_2048_k in FR.
  assert (R : 0 <= full H e < p256 (S (length e))).
  { rewrite p256_S, <- Hl in *. split; [lia|].
    assert (2 ^ Z.of_nat k <= 256) by (change 256 with (2 ^ 8); apply Z.pow_le_mono_r; lia).
    pose proof (p256_pos (length e)). nia. }
  rewrite <- (Z_bytes_pad _ _ R).
  exists (Z_be (S (length e)) (full H e)). split; [reflexivity|]. split; [apply Z_be_length|].
  destruct (full_length H e HP He) as [FL _].
  apply bits_val_inj.
  - rewrite bits_of_length, Z_be_length, app_length, repeat_length, FL. fold (csz e). lia.
  - rewrite bits_val_bits_of, be_Z_be, Z.mod_small by exact R. rewrite bits_val_app.
    assert (Z0 : forall n, bits_val (repeat false n) = 0).
    { induction n as [|n IH]; [reflexivity|]. cbn [repeat]. rewrite bits_val_cons, IH. lia. }
    rewrite Z0. unfold full. lia.
Qed.

(** ** C07: separators *)
Lemma ws_char_decode c r : In c ws_chars -> runes_of (c ++ r) = (c, true) :: runes_of r.
Proof.
  intros Hin. repeat (destruct Hin as [<-|Hin]; [rewrite runes_of_cons by discriminate; reflexivity|]).
  inversion Hin.
Qed.
Lemma ws_char_head c : In c ws_chars -> exists a t, c = a :: t /\ noncont a.
Proof.
  intros Hin.
  repeat (destruct Hin as [<-|Hin]; [eexists; eexists; split; [reflexivity|first [left; reflexivity|right; reflexivity]]|]).
  inversion Hin.
Qed.
Lemma Fields_lead c r : In c ws_chars -> Fields (c ++ r) = Fields r.
Proof. intros Hc. unfold Fields. rewrite ws_char_decode by exact Hc. reflexivity. Qed.
Lemma Fields_blanks s r : blanks s -> Fields (s ++ r) = Fields r.
Proof.
  intros Hs. induction Hs as [|c s Hc Hs IH]; [reflexivity|]. rewrite <- app_assoc, Fields_lead by exact Hc. exact IH.
Qed.
Lemma Fields_word_sep w c r : word_ok w = true -> In c ws_chars -> Fields (w ++ c ++ r) = w :: Fields r.
Proof.
  intros Hw Hc. unfold Fields. destruct (ws_char_head c Hc) as (a & t & E & Ha).
  assert (R : runes_of (w ++ c ++ r) = runes_of w ++ runes_of (c ++ r)).
  { rewrite E. cbn [app]. apply runes_of_app. exact Ha. }
  rewrite R, ws_char_decode by exact Hc. destruct w as [|b w]; [discriminate|].
  rewrite group_app by exact Hw. rewrite runes_concat. reflexivity.
Qed.
Theorem Fields_spaced ws m : text_words ws -> spaced ws m -> Fields m = ws.
Proof.
  intros HT HS. apply text_words_ok in HT. induction HS as [s Hs|s w Hs|s w c ws m Hs Hc HS IH].
  - rewrite <- (app_nil_r s), Fields_blanks by exact Hs. reflexivity.
  - rewrite Fields_blanks by exact Hs. apply Fields_word. inversion HT; assumption.
  - inversion HT; subst. rewrite Fields_blanks, Fields_word_sep by assumption. rewrite IH by assumption. reflexivity.
Qed.
(** Conversely every text is a spacing of its fields. *)
(** In proofs; for bip39/bip39.go:170-249. *)
Definition all_bytes : bytes := map bZ (map Z.of_nat (seq 0 256)).
Lemma all_bytes_in b : In b all_bytes.
Proof.
  unfold all_bytes. apply in_map_iff. exists (Zb b). split; [apply bZ_Zb|].
  apply in_map_iff. pose proof (Zb_range b). exists (Z.to_nat (Zb b)). split; [lia|apply in_seq; lia].
Qed.
(** In proofs; for bip39/bip39.go:170-249. *)
Definition in_ws (s : bytes) : bool := existsb (bytes_eqb s) ws_chars.
(** In proofs; for bip39/bip39.go:170-249. *)
Definition dec_ok (s : bytes) : bool :=
  let (r, w) := decode_rune s in if is_space r then in_ws (firstn w s) else true.
Lemma all_bytes_forall P : forallb P all_bytes = true -> forall b, P b = true.
Proof. intros H b. exact (proj1 (forallb_forall P all_bytes) H b (all_bytes_in b)). Qed.
(** In proofs; for bip39/bip39.go:170-249. *)
Definition cont_bytes : bytes := Eval vm_compute in filter cont all_bytes.
Lemma cont_bytes_eq : cont_bytes = filter cont all_bytes.
Proof. vm_cast_no_check (eq_refl cont_bytes). Qed.
Lemma cont_bytes_forall P : forallb P cont_bytes = true -> forall b, cont b = true -> P b = true.
Proof.
  rewrite cont_bytes_eq.
  intros H b Hb. apply (proj1 (forallb_forall P (filter cont all_bytes)) H).
  apply filter_In. split; [apply all_bytes_in|exact Hb].
Qed.
(** In proofs; for bip39/bip39.go:170-249. *)
Definition chk1 (a : byte) : bool := dec_ok [a].
(** In proofs; for bip39/bip39.go:170-249. *)
Definition chk2 (a : byte) : bool := forallb (fun b => dec_ok [a; b]) cont_bytes.
(** In proofs; for bip39/bip39.go:170-249. *)
Definition chk3 (a : byte) : bool := if in_rng 224 239 a
  then forallb (fun b => forallb (fun c => dec_ok [a; b; c]) cont_bytes) cont_bytes else true.
Lemma chk1_all : forallb chk1 all_bytes = true. Proof. vm_cast_no_check (eq_refl true). Qed.
Lemma chk2_all : forallb chk2 all_bytes = true. Proof. vm_cast_no_check (eq_refl true). Qed.
Lemma chk3_all : forallb chk3 all_bytes = true. Proof. vm_cast_no_check (eq_refl true). Qed.
Opaque dec_ok all_bytes cont_bytes.
Lemma dec_ok1 a : dec_ok [a] = true.
Proof. exact (all_bytes_forall chk1 chk1_all a). Qed.
Lemma dec_ok2 a b : cont b = true -> dec_ok [a; b] = true.
Proof. apply cont_bytes_forall with (P := fun b => dec_ok [a; b]). exact (all_bytes_forall chk2 chk2_all a). Qed.
Lemma dec_ok3 a b c : in_rng 224 239 a = true -> cont b = true -> cont c = true -> dec_ok [a; b; c] = true.
Proof.
  intros Ha Hb Hc. pose proof (all_bytes_forall chk3 chk3_all a) as G. unfold chk3 in G.
  rewrite Ha in G.
  apply (cont_bytes_forall (fun c => dec_ok [a; b; c])); [|exact Hc].
  apply (cont_bytes_forall (fun b => forallb (fun c => dec_ok [a; b; c]) cont_bytes)); [exact G|exact Hb].
Qed.
Transparent dec_ok.
Lemma dec_ok_short a r t : decode_rune (a :: t) = decode_rune (a :: r) ->
  (snd (decode_rune (a :: r)) <= length (a :: r))%nat ->
  (exists u, t = r ++ u) -> dec_ok (a :: r) = true -> dec_ok (a :: t) = true.
Proof.
  intros E L (u & ->) G. unfold dec_ok in *. rewrite E. destruct (decode_rune (a :: r)) as [c w]. cbn [snd] in L.
  change (a :: r ++ u) with ((a :: r) ++ u). rewrite firstn_app.
  replace (w - length (a :: r))%nat with O by lia. cbn [firstn]. rewrite app_nil_r. exact G.
Qed.
Lemma dec_ok_all s : s <> [] -> dec_ok s = true.
Proof.
  intros Hs. destruct s as [|a s]; [now elim Hs|].
  assert (bad : forall t, decode_rune (a :: t) = (65533, 1%nat) -> dec_ok (a :: t) = true)
    by (intros t E; unfold dec_ok; rewrite E; reflexivity).
  destruct (Zb a <? 128) eqn:E1.
  { apply (dec_ok_short a []); [unfold decode_rune; rewrite E1; reflexivity|apply decode_rune_width; discriminate
    |exists s; reflexivity|apply dec_ok1]. }
  destruct (in_rng 194 223 a) eqn:E2.
  { destruct s as [|b s]; [apply dec_ok1|]. destruct (cont b) eqn:Eb.
    - apply (dec_ok_short a [b]); [unfold decode_rune; rewrite E1, E2, Eb; reflexivity
      |apply decode_rune_width; discriminate|exists s; reflexivity|apply dec_ok2; exact Eb].
    - apply bad. unfold decode_rune. rewrite E1, E2, Eb. reflexivity. }
  destruct (in_rng 224 239 a) eqn:E3.
  { destruct s as [|b [|c s]].
    - apply dec_ok1.
    - apply bad. unfold decode_rune. rewrite E1, E2, E3. reflexivity.
    - destruct (in_rng (if Zb a =? 224 then 160 else 128) (if Zb a =? 237 then 159 else 191) b && cont c) eqn:Ebc.
      + apply (dec_ok_short a [b; c]); [unfold decode_rune; rewrite E1, E2, E3; cbv zeta; rewrite Ebc; reflexivity
        |apply decode_rune_width; discriminate|exists s; reflexivity|].
        apply andb_true_iff in Ebc as [Eb Ec]. apply dec_ok3; [exact E3| |exact Ec].
        unfold cont, in_rng in *. destruct (Zb a =? 224), (Zb a =? 237); lia.
      + apply bad. unfold decode_rune. rewrite E1, E2, E3. cbv zeta. rewrite Ebc. reflexivity. }
  destruct (in_rng 240 244 a) eqn:E4; [|apply bad; unfold decode_rune; rewrite E1, E2, E3, E4; reflexivity].
  destruct s as [|b [|c [|d s]]]; [apply dec_ok1| | |];
    [apply bad; unfold decode_rune; rewrite E1, E2, E3, E4; reflexivity
    |apply bad; unfold decode_rune; rewrite E1, E2, E3, E4; reflexivity|].
  destruct (in_rng (if Zb a =? 240 then 144 else 128) (if Zb a =? 244 then 143 else 191) b && cont c && cont d) eqn:E5.
  - unfold dec_ok, decode_rune. rewrite E1, E2, E3, E4. cbv zeta. rewrite E5.
    match goal with |- context [is_space ?r] => assert (N : is_space r = false) end; [|rewrite N; reflexivity].
    apply andb_true_iff in E5 as [E5 Ed]. apply andb_true_iff in E5 as [Eb Ec].
    assert (65536 <= (Zb a - 240) * 262144 + (Zb b - 128) * 4096 + (Zb c - 128) * 64 + (Zb d - 128)).
    { unfold cont, in_rng in *. clear bad. destruct (Zb a =? 240) eqn:Ea; destruct (Zb a =? 244); lia. }
    unfold is_space. lia.
  - apply bad. unfold decode_rune. rewrite E1, E2, E3, E4. cbv zeta. rewrite E5. reflexivity.
Qed.
Lemma space_rune_ws s : s <> [] -> is_space (fst (decode_rune s)) = true ->
  In (firstn (snd (decode_rune s)) s) ws_chars.
Proof.
  intros Hs Hsp. pose proof (dec_ok_all s Hs) as G.
  unfold dec_ok in G. destruct (decode_rune s) as [r w]. cbn [fst snd] in *. rewrite Hsp in G.
  unfold in_ws in G. apply existsb_exists in G as (c & Hc & E). apply bytes_eqb_spec in E as ->. exact Hc.
Qed.
Lemma space_in_ws s c : In (c, true) (runes_of s) -> In c ws_chars.
Proof.
  revert s. apply (len_ind (fun s => In (c, true) (runes_of s) -> In c ws_chars)). intros s IH Hin.
  destruct s as [|a s]; [inversion Hin|].
  pose proof (decode_rune_width (a :: s) ltac:(discriminate)) as W.
  pose proof (space_rune_ws (a :: s) ltac:(discriminate)) as SW.
  rewrite runes_of_cons in Hin by discriminate. destruct Hin as [E|Hin].
  - destruct (decode_rune (a :: s)) as [r w]. cbn [fst snd] in *. injection E as <- E. apply SW. exact E.
  - revert Hin. apply IH. rewrite skipn_length. lia.
Qed.
Lemma spaced_lead c ws m : In c ws_chars -> spaced ws m -> spaced ws (c ++ m).
Proof.
  intros Hc HS. inversion HS; subst.
  - apply sp_end. constructor; assumption.
  - rewrite app_assoc. apply sp_last. constructor; assumption.
  - rewrite app_assoc. apply sp_cons; try assumption. constructor; assumption.
Qed.
Theorem spaced_Fields m : spaced (Fields m) m.
Proof.
  revert m. apply (len_ind (fun m => spaced (Fields m) m)). intros m IH.
  unfold Fields. destruct (split_space (runes_of m)) as [N|(A & c & B' & E & N)].
  - rewrite group_nonspace by exact N. cbn [app]. rewrite runes_concat.
    destruct m as [|a m]; [apply sp_end; constructor|]. apply (sp_last [] (a :: m)). constructor.
  - assert (Hc : In c ws_chars) by (apply (space_in_ws m); rewrite E; apply in_elt).
    rewrite E, group_app by exact N. cbn [app].
    pose proof (runes_suffix (A ++ [(c, true)]) B' m ltac:(rewrite <- app_assoc; exact E)) as R.
    set (t := concat (map fst B')) in *.
    assert (Em : m = concat (map fst A) ++ c ++ t).
    { rewrite <- (runes_concat m), E, map_app, concat_app. reflexivity. }
    assert (St : spaced (group_fields B' []) t).
    { rewrite <- R. apply IH. rewrite Em, !app_length.
      assert (c <> []) by (apply (runes_nonempty m c true); rewrite E; apply in_elt).
      destruct c; [congruence|]. simpl. lia. }
    destruct (concat (map fst A)) as [|a u].
    + rewrite Em. cbn [emit app]. apply spaced_lead; assumption.
    + rewrite Em. cbn [emit]. apply (sp_cons [] (a :: u) c _ t); [constructor|exact Hc|exact St].
Qed.
Theorem spaced_iff ws m : spaced ws m /\ text_words ws <-> Fields m = ws.
Proof.
  split.
  - intros [S T]. apply Fields_spaced; assumption.
  - intros <-. split; [apply spaced_Fields|]. apply text_words_ok, Fields_ok.
Qed.

Theorem respacing H st ws m m' : text_words ws -> spaced ws m -> spaced ws m' ->
  EntropyFromMnemonic H st m = EntropyFromMnemonic H st m' /\
  IsMnemonicValid H st m = IsMnemonicValid H st m'.
Proof.
  intros HT H1 H2. pose proof (Fields_spaced ws m HT H1) as F1. pose proof (Fields_spaced ws m' HT H2) as F2.
  unfold IsMnemonicValid, EntropyFromMnemonic, splitMnemonicWords. rewrite F1, F2. auto.
Qed.
Theorem entropy_of_fields H st m m' : Fields m = Fields m' ->
  EntropyFromMnemonic H st m = EntropyFromMnemonic H st m'.
Proof. intros E. unfold EntropyFromMnemonic, splitMnemonicWords. rewrite E. reflexivity. Qed.
Theorem entropy_normalised H st m :
  EntropyFromMnemonic H st (Join (B " ") (Fields m)) = EntropyFromMnemonic H st m.
Proof. apply entropy_of_fields, Fields_normal. Qed.

(** ** C08 *)
Theorem seed_checked H st m pw : NewSeedWithErrorChecking H st m pw =
  match snd (EntropyFromMnemonic H st m) with
  | None => (NewSeed H m pw, None)
  | Some x => ([], Some x)
  end.
Proof.
  unfold NewSeedWithErrorChecking, MnemonicToByteArray.
  destruct (EntropyFromMnemonic H st m) as [e [x|]]; reflexivity.
Qed.

(** ** C09 *)
Lemma GetWordIndex_set l w i : GetWordIndex (SetWordList l) w = (i, true) <->
  (0 <= i /\ nth_error l (Z.to_nat i) = Some w /\ forall j, nth_error l j = Some w -> (j <= Z.to_nat i)%nat).
Proof.
  unfold GetWordIndex. rewrite SetWordList_get. split.
  - destruct (last_pos w l 0) as [j|] eqn:E; [|discriminate]. intros Q; injection Q as <-.
    pose proof (last_pos_some _ _ _ _ E) as [R N]. rewrite Z.sub_0_r in N. split; [lia|]. split; [exact N|].
    intros k Hk. pose proof (last_pos_last _ _ _ _ _ E Hk). lia.
  - intros (H0 & N & M). destruct (last_pos w l 0) as [j|] eqn:E.
    + pose proof (last_pos_some _ _ _ _ E) as [R N']. rewrite Z.sub_0_r in N'.
      pose proof (last_pos_last _ _ _ _ _ E N). pose proof (M _ N'). do 2 f_equal. lia.
    + apply last_pos_none in E. apply nth_error_In in N. contradiction.
Qed.
Lemma GetWordIndex_none l w : GetWordIndex (SetWordList l) w = (0, false) <-> ~ In w l.
Proof.
  unfold GetWordIndex. rewrite SetWordList_get, <- (last_pos_none w l 0).
  destruct (last_pos w l 0) as [j|]; split; intros E; try reflexivity; discriminate E.
Qed.
Lemma fold_set st0 ls l : fold_left (fun _ x => SetWordList x) (ls ++ [l]) st0 = SetWordList l.
Proof. rewrite fold_left_app. reflexivity. Qed.

(** ** C12 *)
Lemma validate_bits n : validateEntropyBitSize n = None <-> In n [128; 160; 192; 224; 256].
Proof.
  split.
  - unfold validateEntropyBitSize. destruct (_ || _) eqn:E; [discriminate|]. intros _.
    assert (128 <= n <= 256 /\ Z.rem n 32 = 0) as [R M] by lia.
    rewrite Z.rem_mod_nonneg in M by lia. pose proof (Z.div_mod n 32). simpl. lia.
  - intros Hin. simpl in Hin. destruct Hin as [<-|[<-|[<-|[<-|[<-|[]]]]]]; reflexivity.
Qed.
Theorem NewEntropy_spec rd n :
  (In n [128; 160; 192; 224; 256] ->
     exists e, NewEntropy rd n = (e, None) /\ 8 * Z.of_nat (length e) = n /\
       (forall i, (i < length e)%nat ->
          nth_error e i = match nth_error rd i with Some b => Some b | None => Some x00 end) /\
       ((length e <= length rd)%nat -> e = firstn (length e) rd)) /\
  (~ In n [128; 160; 192; 224; 256] -> NewEntropy rd n = ([], Some ErrEntropyLengthInvalid)).
Proof.
  split.
  - intros Hin. unfold NewEntropy. pose proof (proj2 (validate_bits n) Hin) as V. rewrite V.
    set (k := Z.to_nat (Z.quot n 8)).
    assert (Hk : 8 * Z.of_nat k = n)
      by (unfold k; simpl in Hin; destruct Hin as [<-|[<-|[<-|[<-|[<-|[]]]]]]; reflexivity).
    clearbody k. eexists. split; [reflexivity|].
    assert (L : length (firstn k rd ++ repeat x00 (k - length (firstn k rd))) = k)
      by (rewrite app_length, repeat_length, firstn_length; lia).
    rewrite L. split; [exact Hk|]. split.
    + intros i Hi. destruct (Nat.ltb_spec i (length rd)) as [Hl|Hl].
      * rewrite nth_error_app1 by (rewrite firstn_length; lia).
        destruct (nth_error rd i) as [b|] eqn:Eb; [|apply nth_error_None in Eb; lia].
        rewrite <- Eb. rewrite <- (firstn_skipn k rd) at 2. rewrite nth_error_app1 by (rewrite firstn_length; lia). reflexivity.
      * rewrite nth_error_app2 by (rewrite firstn_length; lia).
        assert (nth_error rd i = None) as -> by (apply nth_error_None; exact Hl).
        rewrite (nth_error_nth' _ x00) by (rewrite repeat_length, firstn_length; lia).
        f_equal. apply nth_repeat.
    + intros Hl. rewrite firstn_length. replace (k - Nat.min k (length rd))%nat with O by lia.
      cbn [repeat]. rewrite app_nil_r. reflexivity.
  - intros N. unfold NewEntropy. destruct (validateEntropyBitSize n) as [x|] eqn:V.
    + unfold validateEntropyBitSize in V. destruct (_ || _); [|discriminate]. injection V as <-. reflexivity.
    + apply validate_bits in V. contradiction.
Qed.
