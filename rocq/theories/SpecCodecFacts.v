(** SpecCodecFacts.v - the checksum computed bit by bit is the remainder IEEE 802.3 defines. *)
From Coq Require Import ZifyBool ZifyNat.
From Verif Require Import Base BaseFacts Hash Bip39InitFacts GoCrcFacts SpecCodec.

(** The lowest [n] binary digits in reverse, for bip39/wordlists/english.go:14 (others alike). *)
Fixpoint mirror (n : nat) (v : Z) : Z := match n with O => 0 | S k => Z.b2z (Z.testbit v (Z.of_nat k)) + 2 * mirror k v end.
Lemma mirror_bit n v : forall i, 0 <= i -> Z.testbit (mirror n v) i = (i <? Z.of_nat n) && Z.testbit v (Z.of_nat n - 1 - i).
Proof.
  induction n as [|n IH]; intros i Hi.
  - cbn [mirror]. rewrite Z.bits_0. destruct (Z.ltb_spec i (Z.of_nat 0)); [lia|reflexivity].
  - cbn [mirror]. destruct (Z.eq_dec i 0) as [->|Ni].
    + rewrite Z.bit0_odd. rewrite Z.odd_add_mul_2. rewrite <- Z.bit0_odd, Z.b2z_bit0.
      replace (Z.of_nat (S n) - 1 - 0) with (Z.of_nat n) by lia. destruct (Z.ltb_spec 0 (Z.of_nat (S n))); [reflexivity|lia].
    + assert (E : Z.testbit (Z.b2z (Z.testbit v (Z.of_nat n)) + 2 * mirror n v) i = Z.testbit (mirror n v) (i - 1)).
      { replace i with (Z.succ (i - 1)) at 1 by lia. rewrite <- Z.div2_bits by lia. f_equal.
        destruct (Z.testbit v (Z.of_nat n)); cbn [Z.b2z]; lia. }
      rewrite E. rewrite IH by lia. replace (Z.of_nat (S n) - 1 - i) with (Z.of_nat n - 1 - (i - 1)) by lia.
      f_equal. destruct (Z.ltb_spec (i - 1) (Z.of_nat n)), (Z.ltb_spec i (Z.of_nat (S n))); lia || reflexivity.
Qed.
Lemma mirror_range n v : 0 <= mirror n v < 2 ^ Z.of_nat n.
Proof.
  induction n as [|n IH]; [cbn; lia|]. cbn [mirror]. rewrite Nat2Z.inj_succ, Z.pow_succ_r by lia.
  destruct (Z.testbit v (Z.of_nat n)); cbn [Z.b2z]; lia.
Qed.
Lemma mirror_lxor n a b : mirror n (Z.lxor a b) = Z.lxor (mirror n a) (mirror n b).
Proof.
  apply Z.bits_inj'. intros i Hi. rewrite Z.lxor_spec, !mirror_bit by exact Hi. rewrite Z.lxor_spec.
  destruct (i <? Z.of_nat n); reflexivity.
Qed.
Lemma high_bit v n i : 0 <= v < 2 ^ n -> 0 <= n <= i -> Z.testbit v i = false.
Proof. intros Hv Hi. rewrite <- (Z.mod_small v (2 ^ n)) by exact Hv. apply Z.mod_pow2_bits_high. lia. Qed.
Lemma mirror_mirror n v : 0 <= v < 2 ^ Z.of_nat n -> mirror n (mirror n v) = v.
Proof.
  intros Hv. apply Z.bits_inj'. intros i Hi. rewrite mirror_bit by exact Hi. destruct (Z.ltb_spec i (Z.of_nat n)) as [L|L].
  - rewrite mirror_bit by lia. replace (Z.of_nat n - 1 - (Z.of_nat n - 1 - i)) with i by lia.
    destruct (Z.ltb_spec (Z.of_nat n - 1 - i) (Z.of_nat n)); [reflexivity|lia].
  - cbn [andb]. symmetry. apply (high_bit _ (Z.of_nat n)); [exact Hv|lia].
Qed.
(** digits below a power *)
Lemma mirror_add n k v : 0 <= v < 2 ^ Z.of_nat k -> mirror (n + k) v = 2 ^ Z.of_nat n * mirror k v.
Proof.
  intros Hv. apply Z.bits_inj'. intros i Hi. rewrite mirror_bit by exact Hi. rewrite Z.mul_comm. destruct (Z_lt_ge_dec i (Z.of_nat n)) as [L|L].
  - rewrite Z.mul_pow2_bits_low by lia. rewrite (high_bit v (Z.of_nat k)) by (exact Hv || lia). apply Bool.andb_false_r.
  - rewrite Z.mul_pow2_bits by lia. rewrite mirror_bit by lia.
    replace (Z.of_nat (n + k) - 1 - i) with (Z.of_nat k - 1 - (i - Z.of_nat n)) by lia. f_equal.
    destruct (Z.ltb_spec i (Z.of_nat (n + k))), (Z.ltb_spec (i - Z.of_nat n) (Z.of_nat k)); lia || reflexivity.
Qed.
Lemma mirror_shift n k v : mirror (k + n) (v * 2 ^ Z.of_nat k) = mirror n v.
Proof.
  apply Z.bits_inj'. intros i Hi. rewrite !mirror_bit by exact Hi. destruct (Z.ltb_spec i (Z.of_nat n)) as [L|L].
  - rewrite Z.mul_pow2_bits by lia. replace (Z.of_nat (k + n) - 1 - i - Z.of_nat k) with (Z.of_nat n - 1 - i) by lia.
    destruct (Z.ltb_spec i (Z.of_nat (k + n))); [reflexivity|lia].
  - cbn [andb]. destruct (Z.ltb_spec i (Z.of_nat (k + n))); [|reflexivity]. cbn [andb]. rewrite Z.mul_pow2_bits_low by lia. reflexivity.
Qed.
Lemma mirror_S n v : mirror (S n) v = Z.lxor (Z.b2z (Z.odd v) * 2 ^ Z.of_nat n) (mirror n (Z.shiftr v 1)).
Proof.
  apply Z.bits_inj'. intros i Hi. rewrite Z.lxor_spec, !mirror_bit by exact Hi.
  destruct (Z_lt_ge_dec i (Z.of_nat n)) as [L|L].
  - rewrite Z.mul_pow2_bits_low by lia. rewrite Z.shiftr_spec by lia. replace (Z.of_nat (S n) - 1 - i) with (Z.of_nat n - 1 - i + 1) by lia.
    destruct (Z.ltb_spec i (Z.of_nat (S n))), (Z.ltb_spec i (Z.of_nat n)); try lia. destruct (Z.testbit v _); reflexivity.
  - rewrite Z.mul_pow2_bits by lia. destruct (Z.ltb_spec i (Z.of_nat n)); [lia|]. cbn [andb]. rewrite Bool.xorb_false_r.
    destruct (Z.eq_dec i (Z.of_nat n)) as [->|Ni].
    + rewrite Z.sub_diag, Z.b2z_bit0. replace (Z.of_nat (S n) - 1 - Z.of_nat n) with 0 by lia. rewrite Z.bit0_odd.
      destruct (Z.ltb_spec (Z.of_nat n) (Z.of_nat (S n))); [reflexivity|lia].
    + destruct (Z.ltb_spec i (Z.of_nat (S n))); [lia|]. symmetry. apply (high_bit _ 1); [destruct (Z.odd v); cbn; lia|lia].
Qed.
Lemma multiple_lxor g a b : multiple g a -> multiple g b -> multiple g (Z.lxor a b).
Proof.
  intros Ha Hb. induction Hb as [|v k Hv IH Hk]; [rewrite Z.lxor_0_r; exact Ha|].
  rewrite <- Z.lxor_assoc. apply multiple_add; assumption.
Qed.
(** The reversed polynomial of the code, bip39/wordlists/english.go:14 (others alike). *)
Lemma G_mirror : G = 2 ^ 32 + mirror 32 0xedb88320. Proof. reflexivity. Qed.
Lemma mirror_step N v : 0 <= v < 2 ^ Z.of_nat (S N + 32) ->
  Z.lxor (mirror (S N + 32) v) (mirror (N + 32) (step1 v)) = if Z.odd v then G * 2 ^ Z.of_nat N else 0.
Proof.
  intros Hv. change (S N + 32)%nat with (S (N + 32)). rewrite mirror_S. unfold step1. destruct (Z.odd v); cbn [Z.b2z].
  - rewrite mirror_lxor, (mirror_add N 32 0xedb88320) by lia.
    rewrite !Z.lxor_assoc. rewrite <- (Z.lxor_assoc (mirror (N + 32) _)), Z.lxor_nilpotent, Z.lxor_0_l.
    rewrite G_mirror. rewrite Z.mul_1_l. pose proof (mirror_range 32 0xedb88320) as R. change (2 ^ Z.of_nat 32) with (2 ^ 32) in R.
    rewrite Nat2Z.inj_add, Z.pow_add_r by lia. change (Z.of_nat 32) with 32. set (m := mirror 32 0xedb88320) in *.
    replace (2 ^ Z.of_nat N * m) with (m * 2 ^ Z.of_nat N) by lia. replace (2 ^ Z.of_nat N * 2 ^ 32) with (2 ^ 32 * 2 ^ Z.of_nat N) by lia.
    rewrite <- !Z.shiftl_mul_pow2 by lia. rewrite <- Z.shiftl_lxor. reflexivity.
  - rewrite Z.mul_0_l, Z.lxor_0_l. apply Z.lxor_nilpotent.
Qed.
Lemma step1_wide N v : 0 <= v < 2 ^ Z.of_nat (S N + 32) -> 0 <= step1 v < 2 ^ Z.of_nat (N + 32).
Proof.
  intros Hv. assert (E : 2 ^ Z.of_nat (S N + 32) = 2 * 2 ^ Z.of_nat (N + 32)).
  { replace (Z.of_nat (S N + 32)) with (Z.succ (Z.of_nat (N + 32))) by lia. apply Z.pow_succ_r. lia. }
  assert (H2 : 0 <= Z.shiftr v 1 < 2 ^ Z.of_nat (N + 32)) by (rewrite Z.shiftr_div_pow2 by lia; change (2 ^ 1) with 2; lia).
  unfold step1. destruct (Z.odd v); [|exact H2]. apply lxor_lt; [lia|exact H2|].
  split; [lia|]. apply Z.lt_le_trans with (2 ^ 32); [reflexivity|]. apply Z.pow_le_mono_r; lia.
Qed.
Lemma remainder N : forall v, 0 <= v < 2 ^ Z.of_nat (N + 32) -> multiple G (Z.lxor (mirror (N + 32) v) (mirror 32 (crc_bits N v))).
Proof.
  induction N as [|N IH]; intros v Hv.
  - cbn [Nat.add crc_bits]. rewrite Z.lxor_nilpotent. constructor.
  - rewrite crc_bits_S. specialize (IH (step1 v) (step1_wide N v Hv)).
    replace (Z.lxor (mirror (S N + 32) v) (mirror 32 (crc_bits N (step1 v))))
      with (Z.lxor (Z.lxor (mirror (N + 32) (step1 v)) (mirror 32 (crc_bits N (step1 v)))) (if Z.odd v then G * 2 ^ Z.of_nat N else 0)).
    + destruct (Z.odd v); [apply multiple_add; [exact IH|lia]|rewrite Z.lxor_0_r; exact IH].
    + rewrite <- mirror_step by exact Hv. generalize (mirror (N + 32) (step1 v)) (mirror 32 (crc_bits N (step1 v))) (mirror (S N + 32) v). clear.
      intros a b c. apply Z.bits_inj'. intros i _. rewrite !Z.lxor_spec. destruct (Z.testbit a i), (Z.testbit b i), (Z.testbit c i); reflexivity.
Qed.
(** A multiple of G of degree below 32 is zero. *)
Lemma multiple_run v : multiple G v -> exists N0, forall N, (N0 <= N)%nat -> crc_bits N (mirror (N + 32) v) = 0.
Proof.
  induction 1 as [|v k Hv [N0 IH] Hk].
  - exists O. intros N _. replace (mirror (N + 32) 0) with 0; [apply crc_bits_0|]. symmetry. apply Z.bits_inj'. intros i Hi.
    rewrite mirror_bit by exact Hi. rewrite !Z.bits_0. apply Bool.andb_false_r.
  - exists (Nat.max N0 (S (Z.to_nat k))). intros N HN. rewrite mirror_lxor, crc_bits_lxor, IH by lia. rewrite Z.lxor_0_l.
    set (j := (N - S (Z.to_nat k))%nat). replace (N + 32)%nat with (Z.to_nat k + (j + 33))%nat by lia.
    replace (2 ^ k) with (2 ^ Z.of_nat (Z.to_nat k)) by (f_equal; lia). rewrite mirror_shift. rewrite mirror_add by (vm_compute; split; [discriminate|reflexivity]).
    pose proof (crc_bits_high j 0 (mirror 33 G)) as E. rewrite Z.lxor_0_l, crc_bits_0, Z.lxor_0_l in E.
    replace N with (j + S (Z.to_nat k))%nat by lia. rewrite crc_bits_add, E, crc_bits_S. change (step1 (mirror 33 G)) with 0. apply crc_bits_0.
Qed.
Lemma multiple_small v : multiple G v -> 0 <= v < 2 ^ 32 -> v = 0.
Proof.
  intros Hm Hv. destruct (multiple_run v Hm) as [N0 H]. specialize (H N0 (le_n _)).
  rewrite mirror_add in H by exact Hv. pose proof (crc_bits_high N0 0 (mirror 32 v)) as E. rewrite Z.lxor_0_l, crc_bits_0, Z.lxor_0_l in E.
  rewrite E in H. rewrite <- (mirror_mirror 32 v) by exact Hv. rewrite H. reflexivity.
Qed.
Lemma bits_value b : 0 <= b < 256 -> forall a, fold_left (fun a x => 2 * a + Z.b2z x) (map (Z.testbit b) [0; 1; 2; 3; 4; 5; 6; 7]) a = 2 ^ 8 * a + mirror 8 b.
Proof.
  intros Hb a. cbn [map fold_left mirror]. change (Z.of_nat 0) with 0. change (Z.of_nat 1) with 1. change (Z.of_nat 2) with 2. change (Z.of_nat 3) with 3.
  change (Z.of_nat 4) with 4. change (Z.of_nat 5) with 5. change (Z.of_nat 6) with 6. change (Z.of_nat 7) with 7. lia.
Qed.
Lemma message_mirror m : message_poly m = mirror (8 * length m) (le_val m).
Proof.
  unfold message_poly. assert (A : forall a, fold_left (fun a b => 2 * a + Z.b2z b) (flat_map (fun c => map (Z.testbit (Zb c)) [0; 1; 2; 3; 4; 5; 6; 7]) m) a
    = Z.lxor (a * 2 ^ (8 * Z.of_nat (length m))) (mirror (8 * length m) (le_val m)) \/ a < 0).
  { induction m as [|c m IH]; intros a.
    - left. cbn [flat_map fold_left length Nat.mul mirror]. change (8 * Z.of_nat 0) with 0. rewrite Z.lxor_0_r. lia.
    - destruct (Z_lt_ge_dec a 0) as [Na|Na]; [right; exact Na|left]. cbn [flat_map]. rewrite fold_left_app. rewrite bits_value by apply Zb_range.
      pose proof (mirror_range 8 (Zb c)) as R8. change (2 ^ Z.of_nat 8) with 256 in R8.
      destruct (IH (2 ^ 8 * a + mirror 8 (Zb c))) as [E|E]; [|lia]. rewrite E. clear E IH.
      cbn [length]. replace (8 * S (length m))%nat with (8 + 8 * length m)%nat by lia. cbn [le_val]. rewrite mirror_lxor.
      replace (mirror (8 + 8 * length m) (2 ^ 8 * le_val m)) with (mirror (8 * length m) (le_val m))
        by (rewrite Z.mul_comm; symmetry; apply (mirror_shift (8 * length m) 8)).
      rewrite <- Z.lxor_assoc. f_equal. rewrite (Nat.add_comm 8), mirror_add by apply Zb_range.
      replace (Z.of_nat (8 * length m)) with (8 * Z.of_nat (length m)) by lia.
      replace (8 * Z.of_nat (S (length m))) with (8 + 8 * Z.of_nat (length m)) by lia. rewrite Z.pow_add_r by lia.
      replace (a * (2 ^ 8 * 2 ^ (8 * Z.of_nat (length m)))) with ((2 ^ 8 * a) * 2 ^ (8 * Z.of_nat (length m))) by lia.
      rewrite (Z.mul_comm (2 ^ (8 * Z.of_nat (length m))) (mirror 8 (Zb c))). rewrite <- !Z.shiftl_mul_pow2 by lia. rewrite <- Z.shiftl_lxor. f_equal.
      rewrite (Z.lxor_comm (2 ^ 8 * a)). rewrite low_high; lia. }
  destruct (A 0) as [E|E]; [|lia]. rewrite E. rewrite Z.mul_0_l, Z.lxor_0_l. reflexivity.
Qed.
Lemma message_run m : multiple G (Z.lxor (Z.lxor (message_poly m * 2 ^ 32) ((2 ^ 32 - 1) * 2 ^ (8 * Z.of_nat (length m)))) (mirror 32 (crc_run M32 m))).
Proof.
  set (N := (8 * length m)%nat). assert (RM : 0 <= M32 < 2 ^ Z.of_nat 32) by (unfold M32; cbn; lia).
  pose proof (le_val_nonneg m) as Nn. pose proof (le_val_lt m) as Lt.
  assert (P : 256 ^ Z.of_nat (length m) = 2 ^ Z.of_nat N).
  { change 256 with (2 ^ 8). rewrite <- Z.pow_mul_r by lia. f_equal. unfold N. lia. }
  rewrite P in Lt.
  assert (Rv : 0 <= Z.lxor M32 (le_val m) < 2 ^ Z.of_nat (N + 32)).
  { apply lxor_lt; [lia| |]; (split; [lia|]); [apply Z.lt_le_trans with (2 ^ Z.of_nat 32); [apply RM|]|apply Z.lt_le_trans with (2 ^ Z.of_nat N); [exact Lt|]];
      apply Z.pow_le_mono_r; lia. }
  pose proof (remainder N _ Rv) as Q. unfold N in Q at 2. rewrite <- crc_run_val in Q.
  rewrite mirror_lxor in Q. rewrite mirror_add in Q by exact RM. rewrite (Nat.add_comm N 32), (mirror_add 32 N) in Q by lia.
  unfold N in Q at 2. rewrite <- message_mirror in Q. change (mirror 32 M32) with (2 ^ 32 - 1) in Q.
  rewrite (Z.lxor_comm (_ * (2 ^ 32 - 1))) in Q. change (Z.of_nat 32) with 32 in Q.
  replace (message_poly m * 2 ^ 32) with (2 ^ 32 * message_poly m) by lia.
  replace ((2 ^ 32 - 1) * 2 ^ (8 * Z.of_nat (length m))) with (2 ^ Z.of_nat N * (2 ^ 32 - 1)); [exact Q|].
  replace (Z.of_nat N) with (8 * Z.of_nat (length m)) by lia. lia.
Qed.
Theorem crc_of_iff m c : crc_of m c <-> c = crc32 m.
Proof.
  assert (RM : 0 <= M32 < 2 ^ 32) by (unfold M32; lia).
  pose proof (crc_run_range m M32 RM) as Rr. pose proof (mirror_range 32 (crc_run M32 m)) as Rm. change (2 ^ Z.of_nat 32) with (2 ^ 32) in Rm.
  assert (Rc : 0 <= crc32 m < 2 ^ 32) by (change (crc32 m) with (Z.lxor (crc_run M32 m) M32); apply lxor_lt; lia).
  assert (Bits : forall i, 0 <= i < 32 -> Z.testbit (crc32 m) i = negb (Z.testbit (mirror 32 (crc_run M32 m)) (31 - i))).
  { intros i Hi. change (crc32 m) with (Z.lxor (crc_run M32 m) M32). rewrite Z.lxor_spec. change M32 with (Z.ones 32) at 2. rewrite Z.ones_spec_low by lia.
    rewrite mirror_bit by lia. replace (Z.of_nat 32 - 1 - (31 - i)) with i by lia.
    destruct (Z.ltb_spec (31 - i) (Z.of_nat 32)); [|lia]. destruct (Z.testbit (crc_run M32 m) i); reflexivity. }
  split.
  - intros (R & HR & Hm & Hc & Hb). pose proof (multiple_lxor G _ _ Hm (message_run m)) as M2.
    match type of M2 with multiple _ (Z.lxor (Z.lxor ?a ?b) (Z.lxor ?a ?d)) => replace (Z.lxor (Z.lxor a b) (Z.lxor a d)) with (Z.lxor b d) in M2 end.
    2:{ match goal with |- Z.lxor ?b ?d = Z.lxor (Z.lxor ?a ?b) (Z.lxor ?a ?d) => generalize a b d end. clear. intros x y z.
        apply Z.bits_inj'. intros i _. rewrite !Z.lxor_spec. destruct (Z.testbit x i), (Z.testbit y i), (Z.testbit z i); reflexivity. }
    apply multiple_small in M2; [|apply lxor_lt; lia]. apply Z.lxor_eq in M2. subst R.
    apply Z.bits_inj'. intros i Hi. destruct (Z_lt_ge_dec i 32) as [L|L].
    + rewrite Hb, Bits by lia. reflexivity.
    + rewrite (high_bit c 32), (high_bit (crc32 m) 32) by (assumption || lia). reflexivity.
  - intros ->. exists (mirror 32 (crc_run M32 m)). split; [exact Rm|]. split; [apply message_run|]. split; [exact Rc|]. exact Bits.
Qed.
