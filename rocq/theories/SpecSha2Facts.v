(** SpecSha2Facts.v - SHA-256 and SHA-512 of Hash.v are those of FIPS 180-4. *)
From Coq Require Import ZifyBool ZifyNat Znumtheory.
From Verif Require Import Base BaseFacts Prims Hash HashFacts GoHash GoHashFacts SpecHash SpecHashFacts.

(** ** Words *)
(** For bip39/bip39.go:294, bip32/utils.go:32, bip32/bip32.go:81. *)
Definition wrd (w x : Z) : Prop := 0 <= x < 2 ^ w.
Lemma wrd_mod w x : 0 <= w -> wrd w (x mod 2 ^ w).
Proof. intros Hw. apply Z.mod_pos_bound. apply Z.pow_pos_nonneg; lia. Qed.
Lemma compl_bit w x i : 0 <= w -> wrd w x -> 0 <= i -> Z.testbit (2 ^ w - 1 - x) i = (i <? w) && negb (Z.testbit x i).
Proof.
  intros Hw [H0 H1] Hi.
  assert (E : 2 ^ w - 1 - x = Z.land (Z.lnot x) (Z.ones w)).
  { rewrite Z.land_ones by lia. unfold Z.lnot. apply Z.mod_unique_pos with (-1); lia. }
  rewrite E, Z.land_spec, Z.lnot_spec by lia. rewrite Bool.andb_comm. f_equal.
  destruct (Z.ltb_spec i w); [apply Z.ones_spec_low; lia|apply Z.ones_spec_high; lia].
Qed.
Lemma wrd_bit_high w x i : 0 <= w -> wrd w x -> w <= i -> Z.testbit x i = false.
Proof.
  intros Hw [H0 H1] Hi. destruct (Z.eq_dec x 0) as [->|Hx]; [apply Z.bits_0|]. apply Z.bits_above_log2; [lia|].
  apply Z.log2_lt_pow2; [lia|]. eapply Z.lt_le_trans; [exact H1|]. apply Z.pow_le_mono_r; lia.
Qed.
Lemma ch_eq w e f g : 0 <= w -> wrd w e -> wrd w g -> Z.lxor g (Z.land e (Z.lxor f g)) = Ch w e f g.
Proof.
  intros Hw He Hg. apply Z.bits_inj'. intros i Hi. unfold Ch. rewrite !Z.lxor_spec, !Z.land_spec, Z.lxor_spec.
  rewrite compl_bit by assumption. destruct (Z.ltb_spec i w).
  - destruct (Z.testbit e i), (Z.testbit f i), (Z.testbit g i); reflexivity.
  - rewrite (wrd_bit_high w e), (wrd_bit_high w g) by assumption. reflexivity.
Qed.
Lemma maj_eq a b c : Z.lor (Z.land a b) (Z.land c (Z.lor a b)) = Maj a b c.
Proof.
  apply Z.bits_inj'. intros i Hi. unfold Maj. rewrite !Z.lxor_spec, !Z.lor_spec, !Z.land_spec, Z.lor_spec.
  destruct (Z.testbit a i), (Z.testbit b i), (Z.testbit c i); reflexivity.
Qed.
Lemma rotr_eq w x n : 0 <= n <= w -> rotr w (Z.ones w) x n = ROTR w n x.
Proof.
  intros Hn. unfold rotr, ROTR. rewrite Z.shiftr_div_pow2, Z.shiftl_mul_pow2, Z.land_ones by lia. reflexivity.
Qed.

(** ** Lists and sequences *)
Lemma nth_rev_map (W : nat -> Z) t i : (i < t)%nat -> nth i (rev (map W (seq 0 t))) 0 = W (t - 1 - i)%nat.
Proof.
  intros H. rewrite rev_nth by (rewrite map_length, seq_length; exact H). rewrite map_length, seq_length.
  rewrite nth_indep with (d' := W O) by (rewrite map_length, seq_length; lia). rewrite map_nth, seq_nth by lia.
  f_equal. lia.
Qed.
Lemma map_seq_snoc (W : nat -> Z) t : map W (seq 0 (S t)) = map W (seq 0 t) ++ [W t].
Proof. rewrite seq_S, map_app. reflexivity. Qed.
Lemma skipn_skipn {X} a : forall b (l : list X), skipn a (skipn b l) = skipn (b + a) l.
Proof.
  induction b as [|b IH]; intros l; [reflexivity|]. destruct l as [|x l]; [cbn; now rewrite skipn_nil|]. cbn [skipn Nat.add]. apply IH.
Qed.
Lemma words_be n k : forall b : bytes, (0 < n)%nat -> length b = (n * k)%nat -> be_words n b = map (word_be n b) (seq 0 k).
Proof.
  induction k as [|k IH]; intros b Hn L.
  - destruct b; [reflexivity|simpl in L; lia].
  - unfold be_words. rewrite chunk_cons; [|lia|intros ->; simpl in L; nia].
    cbn [map seq]. f_equal; [unfold word_be; rewrite Nat.mul_0_r; reflexivity|].
    change (map be_Z (chunk n (skipn n b))) with (be_words n (skipn n b)). rewrite IH; [|exact Hn|rewrite skipn_length; nia].
    rewrite <- seq_shift, map_map. apply map_ext. intros i. unfold word_be. rewrite skipn_skipn. do 3 f_equal. lia.
Qed.

Section Sha2.
  Variable s : sha2.
  Let w := w_bits s.
  Let mask := Z.ones w.
  Variables S0 S1 s0 s1 : Z -> Z.
  Variables (K IV : nat -> Z).
  Hypothesis Hw : 0 <= w.
  Hypothesis Hwb : (0 < w_bytes s)%nat.
  Hypothesis Hblk : blk_bytes s = (16 * w_bytes s)%nat.
  Hypothesis Hlen : (len_bytes s < blk_bytes s)%nat.
  Hypothesis Hrounds : (16 <= rounds s)%nat.
  Hypothesis HS0 : forall x, S0 x = Sigma w (Sig0 s) x.
  Hypothesis HS1 : forall x, S1 x = Sigma w (Sig1 s) x.
  Hypothesis Hs0 : forall x, s0 x = sigma w (sg0 s) x.
  Hypothesis Hs1 : forall x, s1 x = sigma w (sg1 s) x.
  Hypothesis HIV : forall i, (i < 8)%nat -> wrd w (IV i).

  Lemma land_mask x : Z.land x mask = x mod 2 ^ w.
  Proof. unfold mask. apply Z.land_ones. exact Hw. Qed.
  Definition recur (W : nat -> Z) (n : nat) : Prop :=
    forall t, (16 <= t < n)%nat ->
      W t = (s1 (W (t - 2)%nat) + W (t - 7)%nat + s0 (W (t - 15)%nat) + W (t - 16)%nat) mod 2 ^ w.
  Lemma sched_eq W n k : recur W n -> forall t, (16 <= t)%nat -> (t + k <= n)%nat ->
    sched mask s0 s1 k (rev (map W (seq 0 t))) = rev (map W (seq 0 (t + k))).
  Proof.
    intros HW. induction k as [|k IH]; intros t Ht Hn; cbn [sched]; [rewrite Nat.add_0_r; reflexivity|].
    cbv zeta. rewrite !nth_rev_map by lia. rewrite land_mask.
    replace (t - 1 - 1)%nat with (t - 2)%nat by lia. replace (t - 1 - 6)%nat with (t - 7)%nat by lia.
    replace (t - 1 - 14)%nat with (t - 15)%nat by lia. replace (t - 1 - 15)%nat with (t - 16)%nat by lia.
    rewrite <- HW by lia.
    replace (W t :: rev (map W (seq 0 t))) with (rev (map W (seq 0 (S t)))).
    - rewrite IH by lia. do 3 f_equal. lia.
    - rewrite map_seq_snoc, rev_app_distr. reflexivity.
  Qed.
  (** the schedule exists *)
  Lemma sched_exists M : exists W, (forall t, (t < 16)%nat -> W t = M t) /\ recur W (rounds s).
  Proof.
    assert (G : forall k, exists W, (forall t, (t < 16)%nat -> W t = M t) /\ recur W (16 + k)%nat).
    { induction k as [|k (W & H0 & H1)].
      - exists M. split; [reflexivity|]. intros t Ht. lia.
      - assert (EN : exists N, N = (16 + k)%nat /\ (16 + S k)%nat = S N /\ (16 <= N)%nat) by (exists (16 + k)%nat; lia).
        destruct EN as (N & EN & ESN & HN). rewrite ESN. rewrite <- EN in H1. clear EN ESN.
        exists (fun t => if (t =? N)%nat then
                    (s1 (W (t - 2)%nat) + W (t - 7)%nat + s0 (W (t - 15)%nat) + W (t - 16)%nat) mod 2 ^ w else W t).
        assert (NE : forall t, t <> N -> (t =? N)%nat = false) by (intros t Ht; apply Nat.eqb_neq; exact Ht).
        split.
        + intros t Ht. rewrite NE by lia. apply H0; exact Ht.
        + intros t Ht. rewrite (NE (t - 2)%nat), (NE (t - 7)%nat), (NE (t - 15)%nat), (NE (t - 16)%nat) by lia.
          destruct (Nat.eq_dec t N) as [E|E]; [subst t; rewrite Nat.eqb_refl; reflexivity|]. rewrite (NE t E). apply H1. lia. }
    destruct (G (rounds s - 16)%nat) as (W & H0 & H1). exists W. split; [exact H0|].
    replace (16 + (rounds s - 16))%nat with (rounds s) in H1 by lia. exact H1.
  Qed.
  (** one round of the standard *)
  Definition round (W a b c d e f g h : nat -> Z) (t : nat) : Prop :=
    let T1 := h t + Sigma w (Sig1 s) (e t) + Ch w (e t) (f t) (g t) + K t + W t in
    let T2 := Sigma w (Sig0 s) (a t) + Maj (a t) (b t) (c t) in
    h (S t) = g t /\ g (S t) = f t /\ f (S t) = e t /\ e (S t) = (d t + T1) mod 2 ^ w /\
    d (S t) = c t /\ c (S t) = b t /\ b (S t) = a t /\ a (S t) = (T1 + T2) mod 2 ^ w.
  Lemma rnds_eq W a b c d e f g h n : forall t,
    (forall i, (t <= i < t + n)%nat -> round W a b c d e f g h i) ->
    wrd w (e t) -> wrd w (f t) -> wrd w (g t) ->
    rnds mask S0 S1 (map W (seq t n)) (map K (seq t n)) (a t) (b t) (c t) (d t) (e t) (f t) (g t) (h t) =
      [a (t + n); b (t + n); c (t + n); d (t + n); e (t + n); f (t + n); g (t + n); h (t + n)]%nat.
  Proof.
    induction n as [|n IH]; intros t Hr He Hf Hg; cbn [seq map rnds].
    - rewrite Nat.add_0_r. reflexivity.
    - cbv zeta. rewrite !land_mask. destruct (Hr t ltac:(lia)) as (Eh & Eg & Ef & Ee & Ed & Ec & Eb & Ea).
      rewrite (ch_eq w) by assumption. rewrite maj_eq, HS0, HS1.
      rewrite <- Z.add_assoc in Ea. replace (t + S n)%nat with (S t + n)%nat by lia.
      rewrite <- Z.add_assoc.
      match goal with |- rnds _ _ _ _ _ ?x _ _ _ ?y _ _ _ = _ => assert (Ex : x = a (S t)); [|assert (Ey : y = e (S t))] end.
      + rewrite Ea. f_equal. lia.
      + rewrite Ee. reflexivity.
      + rewrite Ex, Ey, <- Eb, <- Ec, <- Ed, <- Ef, <- Eg, <- Eh. apply IH.
        * intros i Hi. apply Hr. lia.
        * rewrite Ee. apply wrd_mod. exact Hw.
        * rewrite Ef. exact He.
        * rewrite Eg. exact Hf.
  Qed.
  Definition comp := compress2 mask S0 S1 s0 s1 (map K (seq 0 (rounds s))).
  Definition lst (H : nat -> Z) : list Z := map H (seq 0 8).
  Lemma block_eq H M H' : (forall i, (i < 8)%nat -> wrd w (H i)) -> length M = blk_bytes s ->
    one_block s K H M H' -> lst H' = comp (lst H) (be_words (w_bytes s) M) /\ (forall i, (i < 8)%nat -> wrd w (H' i)).
  Proof.
    intros HR LM (W & a & b & c & d & e & f & g & h & [HW1 HW2] & Ea & Eb & Ec & Ed & Ee & Ef & Eg & Eh & Hr & HH).
    fold w in Hr, HH, HW2. split.
    - assert (HW : recur W (rounds s)).
      { intros t Ht. rewrite HW2 by exact Ht. rewrite Hs0, Hs1. reflexivity. }
      unfold comp, compress2. cbv zeta. rewrite map_length, seq_length.
      rewrite (words_be (w_bytes s) 16) by lia.
      replace (map (word_be (w_bytes s) M) (seq 0 16)) with (map W (seq 0 16)).
      2:{ apply map_ext_in. intros i Hi. apply in_seq in Hi. apply HW1. lia. }
      rewrite (sched_eq W (rounds s)) by (exact HW || lia).
      replace (16 + (rounds s - 16))%nat with (rounds s) by lia. rewrite rev_involutive.
      unfold lst at 2. cbn [seq map].
      rewrite <- Ea, <- Eb, <- Ec, <- Ed, <- Ee, <- Ef, <- Eg, <- Eh.
      rewrite (rnds_eq W a b c d e f g h (rounds s) 0).
      + cbn [Nat.add]. unfold lst. cbn [seq map combine fst snd]. rewrite !land_mask.
        rewrite !HH by lia. cbn [nth]. rewrite <- Ea, <- Eb, <- Ec, <- Ed, <- Ee, <- Ef, <- Eg, <- Eh.
        rewrite (Z.add_comm (a (rounds s))), (Z.add_comm (b (rounds s))), (Z.add_comm (c (rounds s))), (Z.add_comm (d (rounds s))), (Z.add_comm (e (rounds s))), (Z.add_comm (f (rounds s))), (Z.add_comm (g (rounds s))), (Z.add_comm (h (rounds s))). reflexivity.
      + intros i Hi. apply Hr. lia.
      + rewrite Ee. apply HR. lia.
      + rewrite Ef. apply HR. lia.
      + rewrite Eg. apply HR. lia.
    - intros i Hi. rewrite HH by exact Hi. apply wrd_mod. exact Hw.
  Qed.
  Lemma block_exists H M : exists H', one_block s K H M H'.
  Proof.
    destruct (sched_exists (word_be (w_bytes s) M)) as (W & HW1 & HW2).
    assert (G : forall n, exists a b c d e f g h : nat -> Z,
      a O = H 0%nat /\ b O = H 1%nat /\ c O = H 2%nat /\ d O = H 3%nat /\
      e O = H 4%nat /\ f O = H 5%nat /\ g O = H 6%nat /\ h O = H 7%nat /\
      forall t, (t < n)%nat -> round W a b c d e f g h t).
    { induction n as [|n (a & b & c & d & e & f & g & h & Ea & Eb & Ec & Ed & Ee & Ef & Eg & Eh & Hr)].
      - exists (fun _ => H 0%nat), (fun _ => H 1%nat), (fun _ => H 2%nat), (fun _ => H 3%nat),
          (fun _ => H 4%nat), (fun _ => H 5%nat), (fun _ => H 6%nat), (fun _ => H 7%nat).
        repeat (split; [reflexivity|]). intros t Ht. lia.
      - set (up := fun (x : nat -> Z) (v : Z) (t : nat) => if (t =? S n)%nat then v else x t).
        assert (U1 : forall x v, up x v (S n) = v) by (intros; unfold up; rewrite Nat.eqb_refl; reflexivity).
        assert (U2 : forall x v t, t <> S n -> up x v t = x t).
        { intros x v t Ht. unfold up. destruct (Nat.eqb_spec t (S n)); [contradiction|reflexivity]. }
        set (T1 := h n + Sigma w (Sig1 s) (e n) + Ch w (e n) (f n) (g n) + K n + W n).
        set (T2 := Sigma w (Sig0 s) (a n) + Maj (a n) (b n) (c n)).
        exists (up a ((T1 + T2) mod 2 ^ w)), (up b (a n)), (up c (b n)), (up d (c n)), (up e ((d n + T1) mod 2 ^ w)),
          (up f (e n)), (up g (f n)), (up h (g n)).
        rewrite !(U2 _ _ O) by lia. do 8 (split; [assumption|]).
        intros t Ht. unfold round. cbv zeta. rewrite !(U2 _ _ t) by lia.
        destruct (Nat.eq_dec t n) as [->|Hn].
        + rewrite !U1. repeat split; reflexivity.
        + rewrite !(U2 _ _ (S t)) by lia. apply Hr. lia. }
    destruct (G (rounds s)) as (a & b & c & d & e & f & g & h & Ea & Eb & Ec & Ed & Ee & Ef & Eg & Eh & Hr).
    eexists (fun i => (nth i [a (rounds s); b (rounds s); c (rounds s); d (rounds s);
                      e (rounds s); f (rounds s); g (rounds s); h (rounds s)] 0 + H i) mod 2 ^ w_bits s).
    exists W, a, b, c, d, e, f, g, h. split; [split; [exact HW1|]|].
    { intros t Ht. rewrite HW2 by exact Ht. fold w. rewrite <- Hs0, <- Hs1. reflexivity. }
    do 8 (split; [assumption|]). split; [exact Hr|]. intros i Hi. reflexivity.
  Qed.
  Lemma block_ext H M H' H'' : (forall i, (i < 8)%nat -> H' i = H'' i) -> one_block s K H M H' -> one_block s K H M H''.
  Proof.
    intros E (W & a & b & c & d & e & f & g & h & HS & Ea & Eb & Ec & Ed & Ee & Ef & Eg & Eh & Hr & HH).
    exists W, a, b, c, d, e, f, g, h. do 10 (split; [assumption|]). intros i Hi. rewrite <- E by exact Hi. apply HH. exact Hi.
  Qed.
  Lemma lst_inj H H' : lst H = lst H' -> forall i, (i < 8)%nat -> H i = H' i.
  Proof.
    intros E i Hi. apply (f_equal (fun l => nth i l 0)) in E. unfold lst in E.
    rewrite !(nth_indep _ 0 (H O)) in E by (rewrite map_length, seq_length; exact Hi). rewrite map_nth in E.
    rewrite (nth_indep _ (H O) (H' O)) in E by (rewrite map_length, seq_length; exact Hi). rewrite map_nth in E.
    rewrite seq_nth in E by exact Hi. exact E.
  Qed.
  Lemma lst_nth l : length l = 8%nat -> lst (fun i => nth i l 0) = l.
  Proof.
    intros L. do 8 (destruct l as [|? l]; [discriminate L|]). destruct l; [reflexivity|discriminate L].
  Qed.
  (** the padding *)
  Lemma padded_md m : padded (blk_bytes s) (len_bytes s) false m (md_pad (blk_bytes s) (len_bytes s) false 0 m).
  Proof.
    exists (pad_zeros (blk_bytes s) (len_bytes s) (length m)). split; [reflexivity|].
    destruct (pad_multiple (blk_bytes s) (len_bytes s) (length m) Hlen) as [k Hk]. split.
    - rewrite md_pad_length, Hk. apply Nat.mod_mul. lia.
    - intros k' Hk' E. apply Nat.mod_divides in E; [|lia]. destruct E as [q E].
      assert (Hz : (pad_zeros (blk_bytes s) (len_bytes s) (length m) < blk_bytes s)%nat)
        by (unfold pad_zeros; apply Nat.mod_upper_bound; lia).
      assert (q < k)%nat by nia. nia.
  Qed.
  Lemma padded_unique m P : padded (blk_bytes s) (len_bytes s) false m P -> P = md_pad (blk_bytes s) (len_bytes s) false 0 m.
  Proof.
    intros (k & HP & Hm & Hmin). destruct (padded_md m) as (k0 & HP0 & Hm0 & Hmin0). rewrite HP, HP0.
    assert (k = k0) as ->; [|reflexivity].
    assert (L : forall j, length (m ++ [x80] ++ repeat x00 j ++ Z_be (len_bytes s) (8 * Z.of_nat (length m))) =
                          (length m + 1 + j + len_bytes s)%nat).
    { intros j. rewrite !app_length, repeat_length, Z_be_length. cbn [length]. lia. }
    rewrite HP, L in Hm. rewrite HP0, L in Hm0.
    destruct (Nat.lt_trichotomy k k0) as [Q|[Q|Q]]; [|exact Q|].
    - destruct (Hmin0 k Q Hm).
    - destruct (Hmin k0 Q Hm0).
  Qed.
  Definition run (l : list bytes) (st : list Z) : list Z := fold_left (fun st b => comp st (be_words (w_bytes s) b)) l st.
  Lemma chunk_split N : forall P : bytes, length P = (N * blk_bytes s)%nat ->
    chunk (blk_bytes s) P = map (fun j => firstn (blk_bytes s) (skipn (j * blk_bytes s) P)) (seq 0 N).
  Proof.
    assert (Hb : (0 < blk_bytes s)%nat) by lia.
    induction N as [|N IH]; intros P L; [destruct P; [reflexivity|simpl in L; lia]|].
    rewrite chunk_cons; [|lia|intros ->; simpl in L; lia]. cbn [seq map]. f_equal.
    rewrite IH by (rewrite skipn_length; lia). rewrite <- seq_shift, map_map. apply map_ext. intros j.
    rewrite skipn_skipn. reflexivity.
  Qed.
  Theorem sha2_digest_iff m dg : sha2_digest s K IV m dg <->
    dg = flat_map (Z_be (w_bytes s)) (run (chunk (blk_bytes s) (md_pad (blk_bytes s) (len_bytes s) false 0 m)) (lst IV)).
  Proof.
    set (P0 := md_pad (blk_bytes s) (len_bytes s) false 0 m).
    assert (Hb : (0 < blk_bytes s)%nat) by lia.
    destruct (pad_multiple (blk_bytes s) (len_bytes s) (length m) Hlen) as [N0 HN0].
    assert (LP : length P0 = (N0 * blk_bytes s)%nat) by (unfold P0; rewrite md_pad_length; exact HN0).
    assert (LM : forall j, (j < N0)%nat -> length (firstn (blk_bytes s) (skipn (j * blk_bytes s) P0)) = blk_bytes s).
    { intros j Hj. rewrite firstn_length, skipn_length, LP. nia. }
    (* hash values along the blocks *)
    assert (G : forall H n, (n <= N0)%nat -> (forall i, (i < 8)%nat -> H O i = IV i) ->
      (forall j, (j < n)%nat -> one_block s K (H j) (firstn (blk_bytes s) (skipn (j * blk_bytes s) P0)) (H (S j))) ->
      lst (H n) = run (map (fun j => firstn (blk_bytes s) (skipn (j * blk_bytes s) P0)) (seq 0 n)) (lst IV) /\
      (forall i, (i < 8)%nat -> wrd w (H n i))).
    { intros H n. induction n as [|n IH]; intros Hn H0 HB.
      - split; [|intros i Hi; rewrite H0 by exact Hi; apply HIV; exact Hi].
        unfold lst, run. cbn [seq map fold_left]. rewrite !H0 by lia. reflexivity.
      - destruct IH as [E R]; [lia|exact H0|intros j Hj; apply HB; lia|].
        destruct (block_eq (H n) _ (H (S n)) R (LM n ltac:(lia)) (HB n ltac:(lia))) as [E' R']. split; [|exact R'].
        rewrite E', E. rewrite seq_S, map_app. unfold run. rewrite fold_left_app. reflexivity. }
    assert (F : forall (H : nat -> Z), flat_map (fun i => Z_be (w_bytes s) (H i)) (seq 0 8) = flat_map (Z_be (w_bytes s)) (lst H)).
    { intros H. reflexivity. }
    split.
    - intros (P & H & N & HP & LP' & H0 & HB & ->). apply padded_unique in HP. fold P0 in HP. subst P.
      assert (N = N0) by nia. subst N. rewrite F.
      destruct (G H N0 (le_n _) H0 HB) as [E _]. rewrite E, <- chunk_split by exact LP. reflexivity.
    - intros ->. exists P0.
      assert (X : forall n, (n <= N0)%nat -> exists H : nat -> nat -> Z, (forall i, (i < 8)%nat -> H O i = IV i) /\
        (forall j, (j < n)%nat -> one_block s K (H j) (firstn (blk_bytes s) (skipn (j * blk_bytes s) P0)) (H (S j)))).
      { induction n as [|n IH]; intros Hn.
        - exists (fun _ => IV). split; [reflexivity|]. intros j Hj. lia.
        - destruct (IH ltac:(lia)) as (H & H0 & HB).
          destruct (block_exists (H n) (firstn (blk_bytes s) (skipn (n * blk_bytes s) P0))) as [H' HH'].
          exists (fun j => if (j =? S n)%nat then H' else H j). split; [exact H0|].
          intros j Hj. destruct (Nat.eqb_spec j (S n)); [lia|].
          destruct (Nat.eqb_spec (S j) (S n)) as [Ej|Ej]; [injection Ej as ->; exact HH'|]. apply HB. lia. }
      destruct (X N0 (le_n _)) as (H & H0 & HB). exists H, N0.
      split; [apply padded_md|]. split; [exact LP|]. split; [exact H0|]. split; [exact HB|].
      rewrite F. destruct (G H N0 (le_n _) H0 HB) as [E _]. rewrite E, <- chunk_split by exact LP. reflexivity.
  Qed.
End Sha2.

(** ** SHA-256 and SHA-512 *)
Lemma map_nth_seq (l : list Z) : forall n, length l = n -> map (fun i => nth i l 0) (seq 0 n) = l.
Proof.
  induction l as [|x l IH]; intros n <-; [reflexivity|]. cbn [length seq map nth]. f_equal.
  rewrite <- seq_shift, map_map. apply IH. reflexivity.
Qed.
Lemma table_wrd d w tab i : table_ok d w tab = true -> (i < length tab)%nat -> (length tab <= 80)%nat -> wrd w (nth i tab 0).
Proof.
  intros Ht Hi Hl. unfold table_ok in Ht. rewrite forallb_forall in Ht.
  assert (Hp : exists p, In (p, nth i tab 0) (combine primes80 tab)).
  { exists (nth i primes80 0).
    assert (E : nth i (combine primes80 tab) (0, 0) = (nth i primes80 0, nth i tab 0)).
    { assert (LP : length primes80 = 80%nat) by reflexivity. clear Ht. revert LP Hl. generalize 80%nat as n. generalize primes80 as l.
      revert i Hi. induction tab as [|y tab IH]; intros i Hi l n LP Hl; [simpl in Hi; lia|].
      destruct l as [|x l]; [simpl in *; lia|]. destruct i as [|i]; [reflexivity|]. cbn [combine nth].
      cbn [length] in *. destruct n as [|n]; [lia|]. apply (IH i ltac:(lia) l n); lia. }
    rewrite <- E. apply nth_In. rewrite combine_length. change (length primes80) with 80%nat. lia. }
  destruct Hp as [p Hp]. specialize (Ht _ Hp). unfold root_ok in Ht. cbn [fst snd] in Ht. unfold wrd. lia.
Qed.
Lemma ext_compress2 mask S0 S1 s0 s1 ks st b st' : st = st' -> compress2 mask S0 S1 s0 s1 ks st b = compress2 mask S0 S1 s0 s1 ks st' b.
Proof. intros ->. reflexivity. Qed.
Lemma Sigma_eq w i j k x : 0 <= i <= w -> 0 <= j <= w -> 0 <= k <= w ->
  Z.lxor (rotr w (Z.ones w) x i) (Z.lxor (rotr w (Z.ones w) x j) (rotr w (Z.ones w) x k)) = Sigma w (i, j, k) x.
Proof. intros. unfold Sigma. rewrite !rotr_eq by assumption. symmetry. apply Z.lxor_assoc. Qed.
Lemma sigma_eq w i j k x : 0 <= i <= w -> 0 <= j <= w -> 0 <= k ->
  Z.lxor (rotr w (Z.ones w) x i) (Z.lxor (rotr w (Z.ones w) x j) (Z.shiftr x k)) = sigma w (i, j, k) x.
Proof.
  intros. unfold sigma. rewrite !rotr_eq by assumption. rewrite Z.shiftr_div_pow2 by assumption. symmetry. apply Z.lxor_assoc.
Qed.
Lemma seq_const (tab : list Z) n (K : nat -> Z) : length tab = n -> (forall t, (t < n)%nat -> K t = nth t tab 0) ->
  map K (seq 0 n) = tab.
Proof.
  intros L E. transitivity (map (fun i => nth i tab 0) (seq 0 n)); [|apply map_nth_seq; exact L]. apply map_ext_in. intros t Ht. apply in_seq in Ht. apply E. lia.
Qed.
Theorem sha256_fips K IV m dg : sha2_constants FIPS256 K IV -> (sha2_digest FIPS256 K IV m dg <-> dg = sha256 m).
Proof.
  intros [HK HI].
  assert (EK : forall t, (t < 64)%nat -> K t = nth t K256 0).
  { intros t Ht. apply (table_const 3 32 K256 ltac:(lia) ltac:(lia) K256_ok ltac:(cbn; lia) t Ht). apply HK. exact Ht. }
  assert (EI : forall t, (t < 8)%nat -> IV t = nth t H256 0).
  { intros t Ht. apply (table_const 2 32 H256 ltac:(lia) ltac:(lia) H256_ok ltac:(cbn; lia) t Ht). apply HI. exact Ht. }
  rewrite (sha2_digest_iff FIPS256
    (fun a => Z.lxor (r32 a 2) (Z.lxor (r32 a 13) (r32 a 22)))
    (fun e => Z.lxor (r32 e 6) (Z.lxor (r32 e 11) (r32 e 25)))
    (fun x => Z.lxor (r32 x 7) (Z.lxor (r32 x 18) (Z.shiftr x 3)))
    (fun x => Z.lxor (r32 x 17) (Z.lxor (r32 x 19) (Z.shiftr x 10)))).
  - unfold run, comp, lst. cbn [rounds FIPS256]. rewrite (seq_const K256 64 K eq_refl EK), (seq_const H256 8 IV eq_refl EI).
    change (Z.ones (w_bits FIPS256)) with M32. reflexivity.
  - cbn; lia.
  - cbn; lia.
  - reflexivity.
  - cbn; lia.
  - cbn; lia.
  - intros x. apply (Sigma_eq 32); lia.
  - intros x. apply (Sigma_eq 32); lia.
  - intros x. apply (sigma_eq 32); lia.
  - intros x. apply (sigma_eq 32); lia.
  - intros i Hi. rewrite EI by exact Hi. apply (table_wrd 2 32 H256); [exact H256_ok|exact Hi|cbn; lia].
Qed.
Theorem sha512_fips K IV m dg : sha2_constants FIPS512 K IV -> (sha2_digest FIPS512 K IV m dg <-> dg = sha512 m).
Proof.
  intros [HK HI].
  assert (EK : forall t, (t < 80)%nat -> K t = nth t K512 0).
  { intros t Ht. apply (table_const 3 64 K512 ltac:(lia) ltac:(lia) K512_ok ltac:(cbn; lia) t Ht). apply HK. exact Ht. }
  assert (EI : forall t, (t < 8)%nat -> IV t = nth t H512 0).
  { intros t Ht. apply (table_const 2 64 H512 ltac:(lia) ltac:(lia) H512_ok ltac:(cbn; lia) t Ht). apply HI. exact Ht. }
  rewrite (sha2_digest_iff FIPS512
    (fun a => Z.lxor (r64 a 28) (Z.lxor (r64 a 34) (r64 a 39)))
    (fun e => Z.lxor (r64 e 14) (Z.lxor (r64 e 18) (r64 e 41)))
    (fun x => Z.lxor (r64 x 1) (Z.lxor (r64 x 8) (Z.shiftr x 7)))
    (fun x => Z.lxor (r64 x 19) (Z.lxor (r64 x 61) (Z.shiftr x 6)))).
  - unfold run, comp, lst. cbn [rounds FIPS512]. rewrite (seq_const K512 80 K eq_refl EK), (seq_const H512 8 IV eq_refl EI).
    change (Z.ones (w_bits FIPS512)) with M64. reflexivity.
  - cbn; lia.
  - cbn; lia.
  - reflexivity.
  - cbn; lia.
  - cbn; lia.
  - intros x. apply (Sigma_eq 64); lia.
  - intros x. apply (Sigma_eq 64); lia.
  - intros x. apply (sigma_eq 64); lia.
  - intros x. apply (sigma_eq 64); lia.
  - intros i Hi. rewrite EI by exact Hi. apply (table_wrd 2 64 H512); [exact H512_ok|exact Hi|cbn; lia].
Qed.
(** the constants exist *)
Lemma constants256 : sha2_constants FIPS256 (fun t => nth t K256 0) (fun t => nth t H256 0).
Proof.
  split; intros t Ht.
  - apply (table_const 3 32 K256 ltac:(lia) ltac:(lia) K256_ok ltac:(cbn; lia) t Ht).
  - apply (table_const 2 32 H256 ltac:(lia) ltac:(lia) H256_ok ltac:(cbn; lia) t Ht).
Qed.
Lemma constants512 : sha2_constants FIPS512 (fun t => nth t K512 0) (fun t => nth t H512 0).
Proof.
  split; intros t Ht.
  - apply (table_const 3 64 K512 ltac:(lia) ltac:(lia) K512_ok ltac:(cbn; lia) t Ht).
  - apply (table_const 2 64 H512 ltac:(lia) ltac:(lia) H512_ok ltac:(cbn; lia) t Ht).
Qed.
