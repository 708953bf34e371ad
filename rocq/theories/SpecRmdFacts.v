(** SpecRmdFacts.v - RIPEMD-160 of Hash.v is the function of the RIPEMD-160 paper. *)
From Coq Require Import ZifyBool ZifyNat Znumtheory.
From Verif Require Import Base BaseFacts Prims Hash HashFacts GoHash GoHashFacts SpecHash SpecHashFacts SpecSha2Facts.

Lemma rol32_eq x n : 0 <= n <= 32 -> rol32 x n = ROTL 32 n x.
Proof.
  intros Hn. unfold rol32, ROTL. change M32 with (Z.ones 32).
  rewrite Z.shiftl_mul_pow2, Z.land_ones, Z.shiftr_div_pow2 by lia. reflexivity.
Qed.
Lemma land32 x : Z.land x M32 = x mod 2 ^ 32.
Proof. change M32 with (Z.ones 32). apply Z.land_ones. lia. Qed.
Lemma not32_neg x : wrd 32 x -> not32 x = neg32 x.
Proof.
  intros Hx. unfold not32, neg32. apply Z.bits_inj'. intros i Hi. rewrite compl_bit by (exact Hx || lia).
  rewrite Z.lxor_spec. change M32 with (Z.ones 32). destruct (Z.ltb_spec i 32).
  - rewrite Z.ones_spec_low by lia. destruct (Z.testbit x i); reflexivity.
  - rewrite Z.ones_spec_high, (wrd_bit_high 32 x) by (exact Hx || lia). reflexivity.
Qed.
Lemma rmd_f_eq j x y z : (j < 80)%nat -> wrd 32 x -> wrd 32 y -> wrd 32 z -> rmd_f (j / 16) x y z = rmd_bool j x y z.
Proof.
  intros Hj Hx Hy Hz. unfold rmd_bool. rewrite <- !not32_neg by assumption.
  assert (Hq : (j / 16 < 5)%nat) by (apply Nat.div_lt_upper_bound; lia).
  destruct (j / 16)%nat as [|[|[|[|[|?]]]]]; cbn [rmd_f nth]; try lia; try reflexivity.
  symmetry. apply Z.lxor_assoc.
Qed.
Lemma ROTL_wrd w n x : 0 <= n <= w -> wrd w x -> wrd w (ROTL w n x).
Proof.
  intros Hn [H0 H1]. unfold ROTL.
  assert (Ha : wrd w ((x * 2 ^ n) mod 2 ^ w)) by (apply wrd_mod; lia).
  assert (Hb : wrd w (x / 2 ^ (w - n))).
  { split; [apply Z.div_pos; [lia|apply Z.pow_pos_nonneg; lia]|].
    apply Z.le_lt_trans with x; [|exact H1]. apply Z.div_le_upper_bound; [apply Z.pow_pos_nonneg; lia|].
    pose proof (Z.pow_pos_nonneg 2 (w - n)). nia. }
  split; [apply Z.lor_nonneg; split; [apply Ha|apply Hb]|].
  set (u := (x * 2 ^ n) mod 2 ^ w) in *. set (v := x / 2 ^ (w - n)) in *.
  assert (E : Z.lor u v = Z.lor u v mod 2 ^ w); [|rewrite E; apply Z.mod_pos_bound; apply Z.pow_pos_nonneg; lia].
  rewrite <- Z.land_ones by lia. apply Z.bits_inj'. intros i Hi. rewrite Z.land_spec, !Z.lor_spec.
  destruct (Z.ltb_spec i w).
  - rewrite Z.ones_spec_low by lia. rewrite Bool.andb_true_r. reflexivity.
  - rewrite (wrd_bit_high w u), (wrd_bit_high w v) by (assumption || lia). reflexivity.
Qed.
Lemma words_le n k : forall b : bytes, (0 < n)%nat -> length b = (n * k)%nat -> le_words n b = map (word_le n b) (seq 0 k).
Proof.
  induction k as [|k IH]; intros b Hn L.
  - destruct b; [reflexivity|simpl in L; lia].
  - unfold le_words. rewrite chunk_cons; [|lia|intros ->; simpl in L; nia].
    cbn [map seq]. f_equal; [unfold word_le; rewrite Nat.mul_0_r; reflexivity|].
    change (map le_Z (chunk n (skipn n b))) with (le_words n (skipn n b)). rewrite IH; [|exact Hn|rewrite skipn_length; nia].
    rewrite <- seq_shift, map_map. apply map_ext. intros i. unfold word_le. rewrite skipn_skipn. do 4 f_equal. lia.
Qed.
Lemma nth_words_le b r : length b = 64%nat -> (r < 16)%nat -> nth r (le_words 4 b) 0 = word_le 4 b r.
Proof.
  intros L Hr. rewrite (words_le 4 16) by (exact L || lia).
  rewrite nth_indep with (d' := word_le 4 b O) by (rewrite map_length, seq_length; lia). rewrite map_nth, seq_nth by lia. reflexivity.
Qed.

(** ** The tables *)
(** For bip32/utils.go:22. *)
Definition Kl (j : nat) : Z := nth (j / 16)%nat [0; 0x5a827999; 0x6ed9eba1; 0x8f1bbcdc; 0xa953fd4e] 0.
(** For bip32/utils.go:22. *)
Definition Kr (j : nat) : Z := nth (j / 16)%nat [0x50a28be6; 0x5c4dd124; 0x6d703ef3; 0x7a6d76e9; 0] 0.
Lemma rmd_left_table : rmd_left = map (fun j => ((j / 16)%nat, Kl j, r_left j, shift j (r_left j))) (seq 0 80).
Proof. vm_compute. reflexivity. Qed.
Lemma rmd_right_table : rmd_right = map (fun j => (((79 - j) / 16)%nat, Kr j, r_right j, shift j (r_right j))) (seq 0 80).
Proof. vm_compute. reflexivity. Qed.
Lemma tables_range : forallb (fun j => (r_left j <? 16)%nat && (r_right j <? 16)%nat &&
  (0 <=? shift j (r_left j)) && (shift j (r_left j) <=? 32) && (0 <=? shift j (r_right j)) && (shift j (r_right j) <=? 32)) (seq 0 80) = true.
Proof. vm_compute. reflexivity. Qed.
(** For bip32/utils.go:22. *)
Definition whole_ok (d n c : Z) : bool := (0 <=? c) && (c ^ d <=? n) && (n <? (c + 1) ^ d).
Lemma rmd_roots : forallb (fun i => match nth_error primes80 i with
   | Some p => whole_ok 2 (p * 2 ^ 60) (nth (S i) [0; 0x5a827999; 0x6ed9eba1; 0x8f1bbcdc; 0xa953fd4e] 0) &&
               whole_ok 3 (p * 2 ^ 90) (nth i [0x50a28be6; 0x5c4dd124; 0x6d703ef3; 0x7a6d76e9; 0] 0)
   | None => false end) [0; 1; 2; 3]%nat = true.
Proof. vm_compute. reflexivity. Qed.
Lemma rmd_constants_ok : rmd_constants Kl Kr.
Proof.
  split; [|split].
  - intros j Hj. unfold Kl. rewrite Nat.div_small by exact Hj. reflexivity.
  - intros j Hj. unfold Kr. replace (j / 16)%nat with 4%nat; [reflexivity|]. apply Nat.div_unique with (j - 64)%nat; lia.
  - intros j Hj. assert (Hq : (j / 16 < 4)%nat) by (apply Nat.div_lt_upper_bound; lia).
    pose proof rmd_roots as R. rewrite forallb_forall in R. specialize (R (j / 16)%nat).
    assert (Hin : In (j / 16)%nat [0; 1; 2; 3]%nat).
    { revert Hq. generalize (j / 16)%nat as q. intros q Hq. cbn [In]. lia. }
    specialize (R Hin).
    destruct (nth_error primes80 (j / 16)) as [p|] eqn:E; [|discriminate R]. exists p.
    split; [apply primes80_nth; exact E|]. unfold Kl, Kr.
    replace ((16 + j) / 16)%nat with (S (j / 16)).
    + apply Bool.andb_true_iff in R. destruct R as [R1 R2]. unfold whole_ok in R1, R2.
      rewrite !Bool.andb_true_iff, !Z.leb_le, Z.ltb_lt in R1, R2. unfold whole_root. tauto.
    + replace (16 + j)%nat with (j + 1 * 16)%nat by lia. rewrite Nat.div_add by lia. lia.
Qed.
Lemma rmd_constants_unique K K' : rmd_constants K K' -> forall j, (j < 80)%nat -> K j = Kl j /\ K' j = Kr j.
Proof.
  intros (H1 & H2 & H3) j Hj. destruct rmd_constants_ok as (G1 & G2 & G3). split.
  - destruct (Nat.lt_ge_cases j 16) as [Q|Q]; [rewrite H1, G1 by exact Q; reflexivity|].
    destruct (H3 (j - 16)%nat ltac:(lia)) as (p & Hp & Hl & _). destruct (G3 (j - 16)%nat ltac:(lia)) as (q & Hq & Gl & _).
    rewrite (nth_prime_inj _ _ _ Hp Hq) in Hl. replace (16 + (j - 16))%nat with j in * by lia.
    apply (whole_root_inj 2 (q * 2 ^ 60)); [lia|exact Hl|exact Gl].
  - destruct (Nat.lt_ge_cases j 64) as [Q|Q]; [|rewrite H2, G2 by lia; reflexivity].
    destruct (H3 j Q) as (p & Hp & _ & Hl). destruct (G3 j Q) as (q & Hq & _ & Gl).
    rewrite (nth_prime_inj _ _ _ Hp Hq) in Hl. apply (whole_root_inj 3 (q * 2 ^ 90)); [lia|exact Hl|exact Gl].
Qed.

(** ** A line of steps *)
Section Line.
  Variables (fj r : nat -> nat) (K : nat -> Z) (X : bytes).
  Hypothesis HX : length X = 64%nat.
  Hypothesis Hf : forall j, (j < 80)%nat -> (fj j < 80)%nat.
  Hypothesis Hr : forall j, (j < 80)%nat -> (r j < 16)%nat /\ 0 <= shift j (r j) <= 32.
  Lemma line_eq a b c d e : rmd_steps fj r K X a b c d e ->
    forall n t, (t + n <= 80)%nat -> wrd 32 (b t) -> wrd 32 (c t) -> wrd 32 (d t) ->
    rmd_line (map (fun j => ((fj j / 16)%nat, K j, r j, shift j (r j))) (seq t n)) (le_words 4 X) (a t) (b t) (c t) (d t) (e t) =
      (a (t + n), b (t + n), c (t + n), d (t + n), e (t + n))%nat.
  Proof.
    intros Hs. induction n as [|n IH]; intros t Ht Hb Hc Hd; cbn [seq map rmd_line].
    - rewrite Nat.add_0_r. reflexivity.
    - cbv zeta. destruct (Hs t ltac:(lia)) as (Ea & Eb & Ec & Ed & Ee). destruct (Hr t ltac:(lia)) as [Hr1 Hr2].
      rewrite !land32, rmd_f_eq by (assumption || apply Hf; lia). rewrite (rol32_eq _ (shift t (r t))) by exact Hr2.
      rewrite nth_words_le by assumption. rewrite (rol32_eq (c t) 10) by lia.
      rewrite <- Eb, <- Ed, <- Ea, <- Ec, <- Ee. replace (t + S n)%nat with (S t + n)%nat by lia. apply IH.
      + lia.
      + rewrite Eb. apply wrd_mod. lia.
      + rewrite Ec. exact Hb.
      + rewrite Ed. apply ROTL_wrd; [lia|exact Hc].
  Qed.
  Lemma line_exists H : exists a b c d e : nat -> Z,
    a O = H 0%nat /\ b O = H 1%nat /\ c O = H 2%nat /\ d O = H 3%nat /\ e O = H 4%nat /\ rmd_steps fj r K X a b c d e.
  Proof.
    set (step := fun j (a b c d e : Z) =>
      (e, (ROTL 32 (shift j (r j)) ((a + rmd_bool (fj j) b c d + word_le 4 X (r j) + K j) mod 2 ^ 32) + e) mod 2 ^ 32,
       b, ROTL 32 10 c, d)).
    set (v := fix v (j : nat) : Z * Z * Z * Z * Z := match j with
       | O => (H 0%nat, H 1%nat, H 2%nat, H 3%nat, H 4%nat)
       | S j => let '(a, b, c, d, e) := v j in step j a b c d e end).
    exists (fun j => let '(a, _, _, _, _) := v j in a), (fun j => let '(_, b, _, _, _) := v j in b),
      (fun j => let '(_, _, c, _, _) := v j in c), (fun j => let '(_, _, _, d, _) := v j in d),
      (fun j => let '(_, _, _, _, e) := v j in e).
    do 5 (split; [reflexivity|]). intros j Hj.
    change (v (S j)) with (let '(a, b, c, d, e) := v j in step j a b c d e).
    destruct (v j) as [[[[a b] c] d] e]. unfold step. repeat split; reflexivity.
  Qed.
End Line.
Lemma rmd_line_ext l l' w a b c d e : l = l' -> rmd_line l w a b c d e = rmd_line l' w a b c d e.
Proof. intros ->. reflexivity. Qed.
(** For bip32/utils.go:22. *)
Definition lst5 (H : nat -> Z) : list Z := map H (seq 0 5).
Lemma le_lt_79 j : (79 - j < 80)%nat. Proof. lia. Qed.
Section Rmd.
  Variables (K K' : nat -> Z).
  Hypothesis HK : rmd_constants K K'.
  Lemma left_tab : rmd_left = map (fun j => ((j / 16)%nat, K j, r_left j, shift j (r_left j))) (seq 0 80).
  Proof.
    rewrite rmd_left_table. apply map_ext_in. intros j Hj. apply in_seq in Hj.
    rewrite (proj1 (rmd_constants_unique K K' HK j ltac:(lia))). reflexivity.
  Qed.
  Lemma right_tab : rmd_right = map (fun j => (((79 - j) / 16)%nat, K' j, r_right j, shift j (r_right j))) (seq 0 80).
  Proof.
    rewrite rmd_right_table. apply map_ext_in. intros j Hj. apply in_seq in Hj.
    rewrite (proj2 (rmd_constants_unique K K' HK j ltac:(lia))). reflexivity.
  Qed.
  Lemma range j : (j < 80)%nat -> ((r_left j < 16)%nat /\ 0 <= shift j (r_left j) <= 32) /\
    ((r_right j < 16)%nat /\ 0 <= shift j (r_right j) <= 32).
  Proof.
    intros Hj. pose proof tables_range as T. rewrite forallb_forall in T. specialize (T j).
    assert (Hi : In j (seq 0 80)) by (apply in_seq; lia). specialize (T Hi). lia.
  Qed.
  Lemma rmd_block_eq H X H' : (forall i, (i < 5)%nat -> wrd 32 (H i)) -> length X = 64%nat ->
    rmd_block K K' H X H' -> lst5 H' = rmd_compress (lst5 H) (le_words 4 X) /\ (forall i, (i < 5)%nat -> wrd 32 (H' i)).
  Proof.
    intros HR LX (a & b & c & d & e & a' & b' & c' & d' & e' & Ea & Eb & Ec & Ed & Ee & Ea' & Eb' & Ec' & Ed' & Ee' & SL & SR
      & R0 & R1 & R2 & R3 & R4). split.
    - unfold lst5. cbn [seq map]. unfold rmd_compress. rewrite left_tab, right_tab.
      rewrite <- Ea at 1. rewrite <- Eb at 1. rewrite <- Ec at 1. rewrite <- Ed at 1. rewrite <- Ee at 1.
      rewrite (line_eq (fun j => j) r_left K X LX ltac:(intros; lia) (fun j Hj => proj1 (range j Hj)) a b c d e SL 80 0);
        [|lia|rewrite Eb; apply HR; lia|rewrite Ec; apply HR; lia|rewrite Ed; apply HR; lia].
      rewrite <- Ea' at 1. rewrite <- Eb' at 1. rewrite <- Ec' at 1. rewrite <- Ed' at 1. rewrite <- Ee' at 1.
      rewrite (line_eq (fun j => 79 - j)%nat r_right K' X LX (fun j _ => le_lt_79 j) (fun j Hj => proj2 (range j Hj)) a' b' c' d' e' SR 80 0);
        [|lia|rewrite Eb'; apply HR; lia|rewrite Ec'; apply HR; lia|rewrite Ed'; apply HR; lia].
      cbn [Nat.add]. rewrite !land32, R0, R1, R2, R3, R4. reflexivity.
    - intros i Hi. do 5 (destruct i as [|i]; [rewrite ?R0, ?R1, ?R2, ?R3, ?R4; apply wrd_mod; lia|]). lia.
  Qed.
  Lemma rmd_block_exists H X : exists H', rmd_block K K' H X H'.
  Proof.
    destruct (line_exists (fun j => j) r_left K X H) as (a & b & c & d & e & Ea & Eb & Ec & Ed & Ee & SL).
    destruct (line_exists (fun j => 79 - j)%nat r_right K' X H) as (a' & b' & c' & d' & e' & Ea' & Eb' & Ec' & Ed' & Ee' & SR).
    exists (fun i => nth i [(H 1%nat + c 80%nat + d' 80%nat) mod 2 ^ 32; (H 2%nat + d 80%nat + e' 80%nat) mod 2 ^ 32;
      (H 3%nat + e 80%nat + a' 80%nat) mod 2 ^ 32; (H 4%nat + a 80%nat + b' 80%nat) mod 2 ^ 32; (H 0%nat + b 80%nat + c' 80%nat) mod 2 ^ 32] 0).
    exists a, b, c, d, e, a', b', c', d', e'. do 12 (split; [assumption|]). repeat split; reflexivity.
  Qed.
  Lemma padded_le_unique m P P' : padded 64 8 true m P -> padded 64 8 true m P' -> P = P'.
  Proof.
    intros (k & HP & Hm & Hmin) (k0 & HP0 & Hm0 & Hmin0). rewrite HP, HP0.
    assert (L : forall j, length (m ++ [x80] ++ repeat x00 j ++ rev (Z_be 8 (8 * Z.of_nat (length m)))) =
                          (length m + 1 + j + 8)%nat).
    { intros j. rewrite !app_length, repeat_length, rev_length, Z_be_length. cbn [length]. lia. }
    rewrite HP, L in Hm. rewrite HP0, L in Hm0.
    assert (k = k0) as ->; [|reflexivity].
    destruct (Nat.lt_trichotomy k k0) as [Q|[Q|Q]]; [|exact Q|].
    - destruct (Hmin0 k Q Hm).
    - destruct (Hmin k0 Q Hm0).
  Qed.
  Lemma padded_le_md m : padded 64 8 true m (md_pad 64 8 true 0 m).
  Proof.
    exists (pad_zeros 64 8 (length m)). split; [reflexivity|].
    destruct (pad_multiple 64 8 (length m) ltac:(lia)) as [k Hk]. split.
    - rewrite md_pad_length, Hk. apply Nat.mod_mul. lia.
    - intros k' Hk' E. apply Nat.mod_divides in E; [|lia]. destruct E as [q E].
      assert (Hz : (pad_zeros 64 8 (length m) < 64)%nat) by (unfold pad_zeros; apply Nat.mod_upper_bound; lia).
      lia.
  Qed.
  Lemma chunk64 N : forall P : bytes, length P = (N * 64)%nat ->
    chunk 64 P = map (fun j => firstn 64 (skipn (j * 64) P)) (seq 0 N).
  Proof.
    induction N as [|N IH]; intros P L; [destruct P; [reflexivity|simpl in L; lia]|].
    rewrite chunk_cons; [|lia|intros ->; simpl in L; lia]. cbn [seq map]. f_equal.
    rewrite IH by (rewrite skipn_length; lia). rewrite <- seq_shift, map_map. apply map_ext. intros j.
    rewrite skipn_skipn. reflexivity.
  Qed.
  Theorem rmd_digest_iff m dg : rmd_digest K K' m dg <-> dg = ripemd160 m.
  Proof.
    set (P0 := md_pad 64 8 true 0 m).
    destruct (pad_multiple 64 8 (length m) ltac:(lia)) as [N0 HN0].
    assert (LP : length P0 = (N0 * 64)%nat) by (unfold P0; rewrite md_pad_length; exact HN0).
    assert (LM : forall j, (j < N0)%nat -> length (firstn 64 (skipn (j * 64) P0)) = 64%nat).
    { intros j Hj. rewrite firstn_length, skipn_length, LP. lia. }
    set (run := fun l st => fold_left (fun st b => rmd_compress st (le_words 4 b)) l st).
    assert (G : forall H n, (n <= N0)%nat -> (forall i, (i < 5)%nat -> H O i = rmd_IV i) ->
      (forall j, (j < n)%nat -> rmd_block K K' (H j) (firstn 64 (skipn (j * 64) P0)) (H (S j))) ->
      lst5 (H n) = run (map (fun j => firstn 64 (skipn (j * 64) P0)) (seq 0 n)) (lst5 rmd_IV) /\
      (forall i, (i < 5)%nat -> wrd 32 (H n i))).
    { intros H n. induction n as [|n IH]; intros Hn H0 HB.
      - split.
        + unfold lst5, run. cbn [seq map fold_left]. rewrite !H0 by lia. reflexivity.
        + intros i Hi. rewrite H0 by exact Hi. do 5 (destruct i as [|i]; [unfold wrd, rmd_IV; cbn [nth]; lia|]). lia.
      - destruct IH as [E R]; [lia|exact H0|intros j Hj; apply HB; lia|].
        destruct (rmd_block_eq (H n) _ (H (S n)) R (LM n ltac:(lia)) (HB n ltac:(lia))) as [E' R']. split; [|exact R'].
        rewrite E', E. rewrite seq_S, map_app. unfold run. rewrite fold_left_app. reflexivity. }
    assert (F : forall (H : nat -> Z), flat_map (fun i => rev (Z_be 4 (H i))) (seq 0 5) = flat_map (fun x => rev (Z_be 4 x)) (lst5 H)).
    { intros H. reflexivity. }
    assert (E0 : ripemd160 m = flat_map (fun x => rev (Z_be 4 x)) (run (map (fun j => firstn 64 (skipn (j * 64) P0)) (seq 0 N0)) (lst5 rmd_IV))).
    { rewrite <- chunk64 by exact LP. reflexivity. }
    rewrite E0. split.
    - intros (P & H & N & HP & LP' & H0 & HB & ->).
      assert (P = P0) by (apply (padded_le_unique m); [exact HP|apply padded_le_md]). subst P.
      assert (N = N0) by lia. subst N. rewrite F.
      destruct (G H N0 (le_n _) H0 HB) as [E _]. rewrite E. reflexivity.
    - intros ->. exists P0.
      assert (X : forall n, (n <= N0)%nat -> exists H : nat -> nat -> Z, (forall i, (i < 5)%nat -> H O i = rmd_IV i) /\
        (forall j, (j < n)%nat -> rmd_block K K' (H j) (firstn 64 (skipn (j * 64) P0)) (H (S j)))).
      { induction n as [|n IH]; intros Hn.
        - exists (fun _ => rmd_IV). split; [reflexivity|]. intros j Hj. lia.
        - destruct (IH ltac:(lia)) as (H & H0 & HB).
          destruct (rmd_block_exists (H n) (firstn 64 (skipn (n * 64) P0))) as [H' HH'].
          exists (fun j => if (j =? S n)%nat then H' else H j). split; [exact H0|].
          intros j Hj. destruct (Nat.eqb_spec j (S n)); [lia|].
          destruct (Nat.eqb_spec (S j) (S n)) as [Ej|Ej]; [injection Ej as ->; exact HH'|]. apply HB. lia. }
      destruct (X N0 (le_n _)) as (H & H0 & HB). exists H, N0.
      split; [apply padded_le_md|]. split; [exact LP|]. split; [exact H0|]. split; [exact HB|].
      rewrite F. destruct (G H N0 (le_n _) H0 HB) as [E _]. rewrite E. reflexivity.
  Qed.
End Rmd.
