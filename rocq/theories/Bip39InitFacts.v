(** Bip39InitFacts.v - compareByteSlices, the checksum of the word lists, initialisation. *)
From Verif Require Import Base BaseFacts GoStr GoStrFacts Prims Hash Bip39 WordLists Bip39Init.

(** ** compareByteSlices *)
Lemma compare_loop_spec a : forall (pre b : bytes), (length b = length pre + length a)%nat ->
  compare_loop a b (length pre) = Ret (bytes_eqb a (skipn (length pre) b)).
Proof.
  induction a as [|x r IH]; intros pre b L; cbn [compare_loop].
  - rewrite skipn_all2 by (cbn [length] in L; lia). reflexivity.
  - cbn [length] in L. destruct (nth_error b (length pre)) as [y|] eqn:N.
    2:{ apply nth_error_None in N. lia. }
    apply nth_error_split in N as (p & q & -> & Lp). rewrite <- Lp. rewrite skipn_app, skipn_all, Nat.sub_diag. cbn [app skipn].
    change (bytes_eqb (x :: r) (y :: q)) with (Byte.eqb x y && bytes_eqb r q)%bool.
    destruct (Byte.eqb x y) eqn:E; cbn [negb andb]; [|reflexivity].
    replace (S (length p)) with (length (p ++ [y])) by (rewrite app_length; cbn [length]; lia).
    rewrite IH. 2:{ rewrite !app_length in *. cbn [length] in *. lia. }
    f_equal. f_equal. replace (p ++ y :: q) with ((p ++ [y]) ++ q) by (rewrite <- app_assoc; reflexivity).
    rewrite skipn_app, skipn_all, Nat.sub_diag. reflexivity.
Qed.
Theorem compare_spec a b : compareByteSlices a b = Ret (bytes_eqb a b).
Proof.
  unfold compareByteSlices. destruct (Nat.eqb_spec (length a) (length b)) as [E|E]; cbn [negb].
  - exact (compare_loop_spec a [] b (eq_sym E)).
  - destruct (bytes_eqb a b) eqn:X; [|reflexivity]. apply bytes_eqb_spec in X. subst. contradiction.
Qed.

(** ** The checksum *)
(** In proofs; for bip39/bip39.go:324-336. *)
Definition step1 (c : Z) : Z := if Z.odd c then Z.lxor (Z.shiftr c 1) 0xedb88320 else Z.shiftr c 1.
(** In proofs; for bip39/bip39.go:324-336. *)
Definition inv1 (d : Z) : Z := if Z.testbit d 31 then 2 * Z.lxor d 0xedb88320 + 1 else 2 * d.
Lemma crc_bits_S n c : crc_bits (S n) c = crc_bits n (step1 c).
Proof. reflexivity. Qed.
Lemma crc_bits_add n : forall m c, crc_bits (n + m) c = crc_bits m (crc_bits n c).
Proof. induction n as [|n IH]; intros m c; [reflexivity|]. cbn [Nat.add]. rewrite !crc_bits_S. apply IH. Qed.
Lemma lxor_lt n a b : 0 <= n -> 0 <= a < 2 ^ n -> 0 <= b < 2 ^ n -> 0 <= Z.lxor a b < 2 ^ n.
Proof.
  intros Hn Ha Hb. assert (0 <= Z.lxor a b) as P by (apply Z.lxor_nonneg; lia). split; [exact P|].
  destruct (Z.eq_dec (Z.lxor a b) 0) as [->|NZ]; [apply Z.pow_pos_nonneg; lia|].
  apply Z.log2_lt_pow2; [lia|]. eapply Z.le_lt_trans; [apply Z.log2_lxor; lia|].
  destruct (Z.eq_dec a 0) as [->|Na]; destruct (Z.eq_dec b 0) as [->|Nb].
  - rewrite Z.lxor_0_l in NZ. contradiction.
  - change (Z.log2 0) with 0. rewrite Z.max_r by apply Z.log2_nonneg. apply Z.log2_lt_pow2; lia.
  - change (Z.log2 0) with 0. rewrite Z.max_l by apply Z.log2_nonneg. apply Z.log2_lt_pow2; lia.
  - apply Z.max_lub_lt; apply Z.log2_lt_pow2; lia.
Qed.
Lemma half_range c : 0 <= c < 2 ^ 32 -> 0 <= Z.shiftr c 1 < 2 ^ 31.
Proof. intros Hc. rewrite Z.shiftr_div_pow2 by lia. change (2 ^ 1) with 2. split; [apply Z.div_pos; lia|apply Z.div_lt_upper_bound; lia]. Qed.
Lemma small_bit31 v : 0 <= v < 2 ^ 31 -> Z.testbit v 31 = false.
Proof. intros Hv. rewrite Z.testbit_false by lia. rewrite Z.div_small by lia. reflexivity. Qed.
Lemma step1_range c : 0 <= c < 2 ^ 32 -> 0 <= step1 c < 2 ^ 32.
Proof. intros Hc. pose proof (half_range c Hc). unfold step1. destruct (Z.odd c); [apply lxor_lt; lia|lia]. Qed.
Lemma inv1_step1 c : 0 <= c < 2 ^ 32 -> inv1 (step1 c) = c.
Proof.
  intros Hc. pose proof (half_range c Hc) as R. pose proof (small_bit31 _ R) as Z31.
  assert (D : c = 2 * Z.shiftr c 1 + Z.b2z (Z.odd c)).
  { rewrite Z.shiftr_div_pow2 by lia. change (2 ^ 1) with 2. pose proof (Z.div_mod c 2 ltac:(lia)) as DM. pose proof (Zmod_odd c) as MO.
    destruct (Z.odd c); cbn [Z.b2z]; lia. }
  unfold inv1, step1. destruct (Z.odd c) eqn:O.
  - rewrite Z.lxor_spec, Z31. change (Z.testbit 0xedb88320 31) with true. cbn [xorb].
    rewrite Z.lxor_assoc, Z.lxor_nilpotent, Z.lxor_0_r. exact (eq_sym D).
  - rewrite Z31. cbn [Z.b2z] in D. lia.
Qed.
Lemma inv1_range d : 0 <= d < 2 ^ 32 -> 0 <= inv1 d < 2 ^ 32.
Proof.
  intros Hd. unfold inv1. destruct (Z.testbit d 31) eqn:T.
  - assert (0 <= Z.lxor d 0xedb88320 < 2 ^ 31); [|lia].
    assert (R : 0 <= Z.lxor d 0xedb88320 < 2 ^ 32) by (apply lxor_lt; lia). split; [lia|].
    destruct (Z_lt_ge_dec (Z.lxor d 0xedb88320) (2 ^ 31)) as [L|G]; [exact L|exfalso].
    assert (Z.testbit (Z.lxor d 0xedb88320) 31 = true).
    { rewrite Z.testbit_true by lia. replace (Z.lxor d 0xedb88320 / 2 ^ 31) with 1; [reflexivity|].
      apply (Z.div_unique _ _ 1 (Z.lxor d 0xedb88320 - 2 ^ 31)); lia. }
    rewrite Z.lxor_spec, T in H. discriminate H.
  - assert (d < 2 ^ 31); [|lia]. destruct (Z_lt_ge_dec d (2 ^ 31)) as [L|G]; [exact L|exfalso].
    rewrite Z.testbit_false in T by lia. replace (d / 2 ^ 31) with 1 in T; [discriminate T|].
    apply (Z.div_unique _ _ 1 (d - 2 ^ 31)); lia.
Qed.
Lemma step1_inv1 d : step1 (inv1 d) = d.
Proof.
  unfold inv1. destruct (Z.testbit d 31) eqn:T; unfold step1.
  - replace (Z.odd (2 * Z.lxor d 0xedb88320 + 1)) with true by (rewrite Z.odd_add, Z.odd_mul; reflexivity).
    rewrite Z.shiftr_div_pow2 by lia. change (2 ^ 1) with 2.
    replace ((2 * Z.lxor d 0xedb88320 + 1) / 2) with (Z.lxor d 0xedb88320) by (apply (Z.div_unique _ _ _ 1); lia).
    rewrite Z.lxor_assoc, Z.lxor_nilpotent, Z.lxor_0_r. reflexivity.
  - replace (Z.odd (2 * d)) with false by (rewrite Z.odd_mul; reflexivity).
    rewrite Z.shiftr_div_pow2 by lia. change (2 ^ 1) with 2. rewrite Z.mul_comm. apply Z.div_mul. lia.
Qed.
Lemma crc_bits_range n : forall c, 0 <= c < 2 ^ 32 -> 0 <= crc_bits n c < 2 ^ 32.
Proof. induction n as [|n IH]; intros c Hc; [exact Hc|]. rewrite crc_bits_S. apply IH, step1_range, Hc. Qed.
Lemma crc_bits_inj n : forall c d, 0 <= c < 2 ^ 32 -> 0 <= d < 2 ^ 32 -> crc_bits n c = crc_bits n d -> c = d.
Proof.
  induction n as [|n IH]; intros c d Hc Hd E; [exact E|]. rewrite !crc_bits_S in E.
  apply IH in E; [|apply step1_range, Hc|apply step1_range, Hd]. rewrite <- (inv1_step1 c Hc), E. apply inv1_step1, Hd.
Qed.
Lemma crc_bits_onto n : forall d, 0 <= d < 2 ^ 32 -> exists c, 0 <= c < 2 ^ 32 /\ crc_bits n c = d.
Proof.
  induction n as [|n IH]; intros d Hd; [exists d; split; [exact Hd|reflexivity]|].
  destruct (IH d Hd) as (c & Hc & E). exists (inv1 c). split; [apply inv1_range, Hc|].
  rewrite crc_bits_S, step1_inv1. exact E.
Qed.
(** Bits entering at the top are shifted down untouched. *)
Lemma step1_high c d : step1 (Z.lxor c (2 * d)) = Z.lxor (step1 c) d.
Proof.
  unfold step1.
  assert (O : Z.odd (Z.lxor c (2 * d)) = Z.odd c).
  { rewrite <- !Z.bit0_odd, Z.lxor_spec. rewrite Z.testbit_even_0. apply xorb_false_r. }
  rewrite O. rewrite Z.shiftr_lxor.
  replace (Z.shiftr (2 * d) 1) with d by (rewrite Z.shiftr_div_pow2 by lia; change (2 ^ 1) with 2; rewrite Z.mul_comm, Z.div_mul by lia; reflexivity).
  destruct (Z.odd c); [|reflexivity]. rewrite !Z.lxor_assoc. f_equal. apply Z.lxor_comm.
Qed.
Lemma crc_bits_high n : forall c d, crc_bits n (Z.lxor c (2 ^ Z.of_nat n * d)) = Z.lxor (crc_bits n c) d.
Proof.
  induction n as [|n IH]; intros c d; [cbn [crc_bits]; f_equal; change (2 ^ Z.of_nat 0) with 1; lia|].
  rewrite !crc_bits_S. replace (2 ^ Z.of_nat (S n) * d) with (2 * (2 ^ Z.of_nat n * d)).
  - rewrite step1_high. apply IH.
  - rewrite Nat2Z.inj_succ, Z.pow_succ_r by lia. ring.
Qed.
(** The bytes of a text as one number, the first byte lowest. *)
(** In proofs; for bip39/bip39.go:324-336. *)
Fixpoint le_val (m : bytes) : Z := match m with [] => 0 | b :: r => Z.lxor (Zb b) (2 ^ 8 * le_val r) end.
(** In proofs; for bip39/bip39.go:324-336. *)
Definition crc_run (c : Z) (m : bytes) : Z := fold_left (fun c b => crc_bits 8 (Z.lxor c (Zb b))) m c.
Lemma crc_run_val m : forall c, crc_run c m = crc_bits (8 * length m) (Z.lxor c (le_val m)).
Proof.
  induction m as [|b r IH]; intros c; [cbn; rewrite Z.lxor_0_r; reflexivity|].
  change (crc_run c (b :: r)) with (crc_run (crc_bits 8 (Z.lxor c (Zb b))) r). rewrite IH.
  cbn [length le_val]. replace (8 * S (length r))%nat with (8 + 8 * length r)%nat by lia. rewrite crc_bits_add. f_equal.
  rewrite <- Z.lxor_assoc. symmetry. exact (crc_bits_high 8 (Z.lxor c (Zb b)) (le_val r)).
Qed.
Lemma low_high b v : 0 <= b < 2 ^ 8 -> 0 <= v -> Z.lxor b (2 ^ 8 * v) = b + 2 ^ 8 * v.
Proof.
  intros Hb Hv. symmetry. apply Z.add_nocarry_lxor. apply Z.bits_inj'. intros n Hn. rewrite Z.land_spec, Z.bits_0.
  destruct (Z_lt_ge_dec n 8) as [L|G].
  - replace (2 ^ 8 * v) with (v * 2 ^ 8) by ring. rewrite Z.mul_pow2_bits_low by lia. apply andb_false_r.
  - replace (Z.testbit b n) with false; [reflexivity|]. symmetry. destruct (Z.eq_dec b 0) as [->|N]; [apply Z.bits_0|].
    apply Z.bits_above_log2; [lia|]. assert (Z.log2 b < 8) by (apply Z.log2_lt_pow2; lia). lia.
Qed.
Lemma le_val_nonneg m : 0 <= le_val m.
Proof. induction m as [|b r IH]; cbn [le_val]; [lia|]. pose proof (Zb_range b). rewrite low_high by lia. lia. Qed.
Lemma le_val_cons b r : le_val (b :: r) = Zb b + 256 * le_val r.
Proof. cbn [le_val]. pose proof (Zb_range b). pose proof (le_val_nonneg r). rewrite low_high by lia. lia. Qed.
Lemma le_val_lt m : le_val m < 256 ^ Z.of_nat (length m).
Proof.
  induction m as [|b r IH]; [cbn; lia|]. rewrite le_val_cons. cbn [length]. rewrite Nat2Z.inj_succ, Z.pow_succ_r by lia.
  pose proof (Zb_range b). lia.
Qed.
Lemma le_val_inj a : forall b, length a = length b -> le_val a = le_val b -> a = b.
Proof.
  induction a as [|x a IH]; intros [|y b] L E; try discriminate L; [reflexivity|]. rewrite !le_val_cons in E.
  pose proof (Zb_range x). pose proof (Zb_range y).
  assert (Zb x = Zb y /\ le_val a = le_val b) as [E1 E2] by lia.
  rewrite (IH b); [|cbn [length] in L; lia|exact E2]. f_equal. apply Zb_inj, E1.
Qed.
Lemma le_val_onto n : forall v, 0 <= v < 256 ^ Z.of_nat n -> exists m, length m = n /\ le_val m = v.
Proof.
  induction n as [|n IH]; intros v Hv; [exists []; split; [reflexivity|cbn in *; lia]|].
  rewrite Nat2Z.inj_succ, Z.pow_succ_r in Hv by lia.
  destruct (IH (v / 256)) as (m & L & E); [split; [apply Z.div_pos; lia|apply Z.div_lt_upper_bound; lia]|].
  exists (bZ (v mod 256) :: m). split; [cbn [length]; lia|]. rewrite le_val_cons, E, Zb_bZ, Z.mod_mod by lia.
  pose proof (Z.div_mod v 256 ltac:(lia)). lia.
Qed.
Lemma crc_run_range m : forall c, 0 <= c < 2 ^ 32 -> 0 <= crc_run c m < 2 ^ 32.
Proof.
  induction m as [|b m IH]; intros c Hc; [exact Hc|]. apply IH, crc_bits_range. apply lxor_lt; [lia|exact Hc|].
  pose proof (Zb_range b). lia.
Qed.
Lemma crc_run_app a b c : crc_run c (a ++ b) = crc_run (crc_run c a) b.
Proof. apply fold_left_app. Qed.
Lemma crc_run_inj m : forall c d, 0 <= c < 2 ^ 32 -> 0 <= d < 2 ^ 32 -> crc_run c m = crc_run d m -> c = d.
Proof.
  intros c d Hc Hd E. revert c d Hc Hd E. induction m as [|b m IH]; intros c d Hc Hd E; [exact E|].
  pose proof (Zb_range b).
  assert (X : Z.lxor c (Zb b) = Z.lxor d (Zb b)).
  { apply (crc_bits_inj 8); [apply lxor_lt; lia|apply lxor_lt; lia|]. apply IH; [apply crc_bits_range, lxor_lt; lia|apply crc_bits_range, lxor_lt; lia|exact E]. }
  rewrite <- (Z.lxor_0_r c), <- (Z.lxor_0_r d), <- (Z.lxor_nilpotent (Zb b)), <- !Z.lxor_assoc, X. reflexivity.
Qed.
Lemma lxor_cancel c a b : Z.lxor c a = Z.lxor c b -> a = b.
Proof. intros E. rewrite <- (Z.lxor_0_l a), <- (Z.lxor_0_l b), <- (Z.lxor_nilpotent c), !Z.lxor_assoc, E. reflexivity. Qed.
Lemma pow256_4 n : (n <= 4)%nat -> 256 ^ Z.of_nat n <= 2 ^ 32.
Proof. intros Hn. change (2 ^ 32) with (256 ^ 4). apply Z.pow_le_mono_r; lia. Qed.
(** A change confined to four consecutive bytes changes the checksum. *)
Theorem crc32_burst p x y s : length x = length y -> (length x <= 4)%nat -> x <> y -> crc32 (p ++ x ++ s) <> crc32 (p ++ y ++ s).
Proof.
  intros L L4 N E. apply N. unfold crc32 in E. rewrite (Z.lxor_comm _ M32), (Z.lxor_comm (fold_left _ _ _) M32) in E. apply lxor_cancel in E.
  change (crc_run M32 (p ++ x ++ s) = crc_run M32 (p ++ y ++ s)) in E. rewrite !crc_run_app in E.
  assert (R0 : 0 <= M32 < 2 ^ 32) by (unfold M32; lia).
  pose proof (crc_run_range p M32 R0) as Rp. set (c := crc_run M32 p) in *.
  apply crc_run_inj in E; [|apply crc_run_range, Rp|apply crc_run_range, Rp]. rewrite !crc_run_val, <- L in E.
  pose proof (le_val_nonneg x). pose proof (le_val_nonneg y). pose proof (le_val_lt x) as Lx. pose proof (le_val_lt y) as Ly.
  pose proof (pow256_4 (length x) L4). rewrite <- L in Ly.
  apply crc_bits_inj in E; [|apply lxor_lt; lia|apply lxor_lt; lia]. apply lxor_cancel in E. apply le_val_inj; assumption.
Qed.
(** Four bytes can be chosen to give any checksum. *)
Theorem crc32_forge p s v : 0 <= v < 2 ^ 32 -> exists x, length x = 4%nat /\ crc32 (p ++ x ++ s) = v.
Proof.
  intros Hv. assert (R0 : 0 <= M32 < 2 ^ 32) by (unfold M32; lia). pose proof (crc_run_range p M32 R0) as Rp. set (c := crc_run M32 p) in *.
  destruct (crc_bits_onto (8 * length s) (Z.lxor v M32)) as (d0 & Hd0 & E0); [apply lxor_lt; lia|].
  pose proof (le_val_nonneg s) as Ns.
  (* the state before s *)
  assert (S0 : forall m w, 0 <= w < 2 ^ 32 -> exists d, 0 <= d < 2 ^ 32 /\ crc_run d m = w).
  { induction m as [|b m IH]; intros w Hw; [exists w; split; [exact Hw|reflexivity]|].
    destruct (IH w Hw) as (d & Hd & E). destruct (crc_bits_onto 8 d Hd) as (e & He & E').
    pose proof (Zb_range b). exists (Z.lxor e (Zb b)). split; [apply lxor_lt; lia|].
    change (crc_run (crc_bits 8 (Z.lxor (Z.lxor e (Zb b)) (Zb b))) m = w). rewrite Z.lxor_assoc, Z.lxor_nilpotent, Z.lxor_0_r, E'. exact E. }
  destruct (S0 s (Z.lxor v M32)) as (d & Hd & Ed); [apply lxor_lt; lia|].
  destruct (crc_bits_onto 32 d Hd) as (e & He & Ee).
  destruct (le_val_onto 4 (Z.lxor c e)) as (x & Lx & Ex).
  { change (256 ^ Z.of_nat 4) with (2 ^ 32). apply lxor_lt; lia. }
  exists x. split; [exact Lx|]. unfold crc32. change (Z.lxor (crc_run M32 (p ++ x ++ s)) M32 = v). rewrite !crc_run_app. fold c.
  rewrite (crc_run_val x), Lx, Ex, <- Z.lxor_assoc, Z.lxor_nilpotent, Z.lxor_0_l. change (8 * 4)%nat with 32%nat. rewrite Ee, Ed.
  rewrite Z.lxor_assoc, Z.lxor_nilpotent, Z.lxor_0_r. reflexivity.
Qed.

(** ** The text of the checksum *)
Lemma hexval_hexdigit d : 0 <= d < 16 -> hexval (hexdigit d) = Some d.
Proof.
  intros Hd. assert (d = 0 \/ d = 1 \/ d = 2 \/ d = 3 \/ d = 4 \/ d = 5 \/ d = 6 \/ d = 7 \/ d = 8 \/ d = 9 \/ d = 10 \/ d = 11 \/ d = 12 \/ d = 13 \/ d = 14 \/ d = 15) as K by lia.
  repeat (destruct K as [->|K]; [reflexivity|]). subst. reflexivity.
Qed.
(** In proofs; for bip39/bip39.go:324-336. *)
Definition hexnum (c : Z) (s : bytes) : Z := fold_left (fun a b => 16 * a + match hexval b with Some v => v | None => 0 end) s c.
Lemma hex_digits_num n : forall v acc, 0 <= v < 16 ^ Z.of_nat n -> hexnum 0 (hex_digits n v acc) = hexnum v acc.
Proof.
  induction n as [|n IH]; intros v acc Hv; [cbn in Hv; cbn [hex_digits]; f_equal; lia|].
  rewrite Nat2Z.inj_succ, Z.pow_succ_r in Hv by lia. cbn [hex_digits]. pose proof (Z.div_mod v 16 ltac:(lia)) as DM. pose proof (Z.mod_pos_bound v 16 ltac:(lia)) as MB.
  assert (S1 : forall a, hexnum a (hexdigit (v mod 16) :: acc) = hexnum (16 * a + v mod 16) acc).
  { intros a. unfold hexnum at 1. cbn [fold_left]. rewrite hexval_hexdigit by exact MB. reflexivity. }
  destruct (Z.eqb_spec (v / 16) 0) as [Z0|NZ].
  - rewrite S1. f_equal. lia.
  - rewrite IH by (split; [apply Z.div_pos; lia|apply Z.div_lt_upper_bound; lia]). rewrite S1. f_equal. lia.
Qed.
Lemma Sprintf_x_inj a b : 0 <= a < 2 ^ 64 -> 0 <= b < 2 ^ 64 -> Sprintf_x a = Sprintf_x b -> a = b.
Proof.
  intros Ha Hb E. change (2 ^ 64) with (16 ^ Z.of_nat 16) in *.
  pose proof (hex_digits_num 16 a [] Ha) as A. pose proof (hex_digits_num 16 b [] Hb) as B'.
  unfold Sprintf_x in E. rewrite E, B' in A. exact (eq_sym A).
Qed.
Lemma crc32_range m : 0 <= crc32 m < 2 ^ 32.
Proof. unfold crc32. apply lxor_lt; [lia| |unfold M32; lia]. apply crc_run_range. unfold M32; lia. Qed.

(** ** Initialisation *)
Lemma wl_init_iff t c : wl_init t c = Ret tt <-> Sprintf_x (crc32 t) = c.
Proof. unfold wl_init. destruct (bytes_eqb _ c) eqn:E; [apply bytes_eqb_spec in E; tauto|]. split; [discriminate|]. intros X. apply bytes_eqb_spec in X. congruence. Qed.
Lemma wl_init_panic t c : wl_init t c = Panic <-> Sprintf_x (crc32 t) <> c.
Proof. pose proof (wl_init_iff t c) as K. unfold wl_init in *. destruct (bytes_eqb _ c); split; intros X; try discriminate; try (intros Y; apply K in Y; congruence); try reflexivity. exfalso. apply X, K. reflexivity. Qed.
Theorem wl_inits_iff fs : wl_inits fs = Ret tt <-> forall t c, In (t, c) fs -> Sprintf_x (crc32 t) = c.
Proof.
  induction fs as [|[t c] fs IH]; cbn [wl_inits]; [split; [intros _ ? ? []|reflexivity]|].
  destruct (wl_init t c) as [[]|] eqn:E.
  - apply wl_init_iff in E. rewrite IH. split.
    + intros X t' c' [Y|Y]; [injection Y as <- <-; exact E|exact (X _ _ Y)].
    + intros X t' c' Y. apply X. right. exact Y.
  - apply wl_init_panic in E. split; [discriminate|]. intros X. exfalso. apply E, X. left. reflexivity.
Qed.
Lemma wl_inits_total fs : wl_inits fs = Ret tt \/ wl_inits fs = Panic.
Proof. destruct (wl_inits fs) as [[]|]; [left|right]; reflexivity. Qed.
Theorem init_detects p x y s c : wl_init (p ++ x ++ s) c = Ret tt -> length x = length y -> (length x <= 4)%nat -> x <> y ->
  wl_init (p ++ y ++ s) c = Panic.
Proof.
  intros E L L4 N. apply wl_init_iff in E. apply wl_init_panic. intros E'. apply (crc32_burst p x y s L L4 N).
  pose proof (crc32_range (p ++ x ++ s)). pose proof (crc32_range (p ++ y ++ s)). apply Sprintf_x_inj; [lia|lia|congruence].
Qed.
Theorem init_misses p b x s c : wl_init (p ++ b :: x ++ s) c = Ret tt -> length x = 4%nat -> forall b', b' <> b ->
  exists x', length x' = 4%nat /\ wl_init (p ++ b' :: x' ++ s) c = Ret tt.
Proof.
  intros E L b' N. destruct (crc32_forge (p ++ [b']) s (crc32 (p ++ b :: x ++ s)) (crc32_range _)) as (x' & L' & E').
  exists x'. split; [exact L'|]. apply wl_init_iff in E. apply wl_init_iff. rewrite <- E. f_equal. rewrite <- E'. f_equal.
  rewrite <- app_assoc. reflexivity.
Qed.
