(** GoCrcFacts.v - hash/crc32's slicing-by-8 gives the checksum of the model, and that is the one of IEEE 802.3. *)
From Coq Require Import ZifyBool ZifyNat.
From Verif Require Import Base BaseFacts Bip32 Hash Bip39InitFacts GoCodec GoCodecFacts SpecCodec.

Lemma step1_lxor a b : step1 (Z.lxor a b) = Z.lxor (step1 a) (step1 b).
Proof.
  unfold step1. rewrite <- !Z.bit0_odd, Z.lxor_spec, Z.shiftr_lxor. rewrite !Z.bit0_odd.
  set (p := 0xedb88320). destruct (Z.odd a), (Z.odd b); cbn [xorb].
  - rewrite !Z.lxor_assoc. f_equal. rewrite (Z.lxor_comm p), Z.lxor_assoc, Z.lxor_nilpotent, Z.lxor_0_r. reflexivity.
  - rewrite !Z.lxor_assoc. f_equal. apply Z.lxor_comm.
  - rewrite !Z.lxor_assoc. reflexivity.
  - reflexivity.
Qed.
Lemma crc_bits_lxor n : forall a b, crc_bits n (Z.lxor a b) = Z.lxor (crc_bits n a) (crc_bits n b).
Proof. induction n as [|n IH]; intros a b; [reflexivity|]. rewrite !crc_bits_S, step1_lxor. apply IH. Qed.
Lemma crc_bits_0 n : crc_bits n 0 = 0.
Proof. induction n as [|n IH]; [reflexivity|]. rewrite crc_bits_S. exact IH. Qed.
Lemma crc_shift_eq n : forall c, crc_shift n c = crc_bits n c.
Proof.
  induction n as [|n IH]; intros c; [reflexivity|]. cbn [crc_shift crc_bits]. rewrite IH. f_equal.
  replace (Z.land c 1 =? 1) with (Z.odd c); [reflexivity|]. change 1 with (Z.ones 1) at 1. rewrite Z.land_ones by lia.
  change (2 ^ 1) with 2. rewrite Zmod_odd. destruct (Z.odd c); reflexivity.
Qed.
Lemma split8 c : 0 <= c -> c = Z.lxor (c mod 256) (2 ^ 8 * (c / 256)).
Proof.
  intros Hc. rewrite low_high; [|apply Z.mod_pos_bound; lia|apply Z.div_pos; lia].
  change (2 ^ 8) with 256. pose proof (Z.div_mod c 256 ltac:(lia)). lia.
Qed.
Lemma step8 c : 0 <= c -> Z.lxor (crc_bits 8 (c mod 256)) (Z.shiftr c 8) = crc_bits 8 c.
Proof.
  intros Hc. rewrite (split8 c Hc) at 3. rewrite (crc_bits_high 8). rewrite Z.shiftr_div_pow2 by lia. reflexivity.
Qed.
Lemma simple_get i : 0 <= i < 256 -> get simple_table (Z.to_nat i) = Ret (crc_bits 8 i).
Proof.
  intros Hi. unfold simple_table, get. rewrite nth_error_map.
  rewrite (nth_error_nth' _ O) by (rewrite seq_length; lia). rewrite seq_nth by lia. cbn [option_map Nat.add].
  rewrite crc_shift_eq, Z2Nat.id by lia. reflexivity.
Qed.
(** table k of the eight: bip39/wordlists/english.go:14 (others alike) *)
Definition tab (k : nat) : list Z := map (fun i => crc_bits (8 * S k) (Z.of_nat i)) (seq 0 256).
Lemma simple_tab : simple_table = tab 0.
Proof. unfold simple_table, tab. apply map_ext. intros i. apply crc_shift_eq. Qed.
Lemma tab_get k i : 0 <= i < 256 -> get (tab k) (Z.to_nat i) = Ret (crc_bits (8 * S k) i).
Proof.
  intros Hi. unfold tab, get. rewrite nth_error_map.
  rewrite (nth_error_nth' _ O) by (rewrite seq_length; lia). rewrite seq_nth by lia. cbn [option_map Nat.add].
  rewrite Z2Nat.id by lia. reflexivity.
Qed.
Lemma next_tab k : next_entries (tab 0) (tab k) = Ret (tab (S k)).
Proof.
  unfold tab at 2 3. assert (Hs : forall i, In i (seq 0 256) -> (i < 256)%nat) by (intros i Hi; apply in_seq in Hi; lia).
  revert Hs. generalize (seq 0 256) as l. induction l as [|i l IH]; intros Hs; [reflexivity|]. cbn [map next_entries].
  assert (Hi : (i < 256)%nat) by (apply Hs; left; reflexivity).
  set (crc := crc_bits (8 * S k) (Z.of_nat i)).
  assert (Rc : 0 <= crc < 2 ^ 32) by (apply crc_bits_range; lia).
  assert (El : Z.land crc 255 = crc mod 256) by (change 255 with (Z.ones 8); rewrite Z.land_ones by lia; reflexivity).
  rewrite El. rewrite tab_get by (apply Z.mod_pos_bound; lia). cbn [bind]. rewrite IH by (intros j Hj; apply Hs; right; exact Hj). cbn [bind].
  do 2 f_equal. change (8 * 1)%nat with 8%nat. rewrite step8 by lia. unfold crc. rewrite <- crc_bits_add. f_equal. lia.
Qed.
Lemma slicing_tables_eq : slicing_tables = Ret (map tab (seq 0 8)).
Proof.
  unfold slicing_tables. rewrite simple_tab. cbn [more_tables].
  rewrite (next_tab 0). cbn [bind]. rewrite (next_tab 1). cbn [bind]. rewrite (next_tab 2). cbn [bind]. rewrite (next_tab 3). cbn [bind].
  rewrite (next_tab 4). cbn [bind]. rewrite (next_tab 5). cbn [bind]. rewrite (next_tab 6). cbn [bind]. reflexivity.
Qed.
Lemma entry_get k i : (k < 8)%nat -> 0 <= i < 256 -> entry (map tab (seq 0 8)) k i = Ret (crc_bits (8 * S k) i).
Proof.
  intros Hk Hi. unfold entry. unfold get at 1. rewrite nth_error_map, (nth_error_nth' _ O) by (rewrite seq_length; exact Hk).
  rewrite seq_nth by exact Hk. cbn [option_map bind Nat.add]. apply tab_get. exact Hi.
Qed.
Lemma lxor_mod c v : 0 <= c -> 0 <= v < 256 -> Z.lxor (c mod 256) v = (Z.lxor c v) mod 256 /\ Z.shiftr c 8 = Z.shiftr (Z.lxor c v) 8.
Proof.
  intros Hc Hv. split.
  - change 256 with (2 ^ 8). rewrite <- !Z.land_ones by lia. apply Z.bits_inj'. intros i Hi.
    rewrite !Z.lxor_spec, !Z.land_spec, !Z.lxor_spec. destruct (Z.ltb_spec i 8).
    + rewrite Z.ones_spec_low by lia. rewrite !Bool.andb_true_r. reflexivity.
    + rewrite Z.ones_spec_high by lia. rewrite !Bool.andb_false_r. rewrite <- (Z.mod_small v (2 ^ 8)) by lia.
      rewrite Z.mod_pow2_bits_high by lia. reflexivity.
  - rewrite Z.shiftr_lxor. rewrite (Z.shiftr_div_pow2 v) by lia. change (2 ^ 8) with 256. rewrite Z.div_small by exact Hv. rewrite Z.lxor_0_r. reflexivity.
Qed.
Lemma simple_loop_ok p : forall c, 0 <= c < 2 ^ 32 -> simple_loop (tab 0) c p = Ret (crc_run c p).
Proof.
  induction p as [|v p IH]; intros c Hc; [reflexivity|]. cbn [simple_loop]. pose proof (Zb_range v) as Hv.
  destruct (lxor_mod c (Zb v)) as [E1 E2]; [lia|exact Hv|]. rewrite E1, E2.
  rewrite tab_get by (apply Z.mod_pos_bound; lia). cbn [bind]. change (8 * 1)%nat with 8%nat.
  assert (Rx : 0 <= Z.lxor c (Zb v) < 2 ^ 32) by (apply lxor_lt; lia).
  rewrite step8 by lia. rewrite IH by (apply crc_bits_range; exact Rx). reflexivity.
Qed.
Lemma not32_eq x : 0 <= x < 2 ^ 32 -> not32 x = Z.lxor x M32 /\ 0 <= not32 x < 2 ^ 32.
Proof.
  intros Hx. split; [|unfold not32; lia]. unfold not32. change M32 with (Z.ones 32).
  assert (L : Z.land x (not32 x) = 0).
  { unfold not32. replace (2 ^ 32 - 1 - x) with ((Z.lnot x) mod 2 ^ 32).
    - rewrite <- Z.land_ones by lia. rewrite Z.land_assoc, Z.land_lnot_diag. apply Z.land_0_l.
    - unfold Z.lnot. symmetry. apply (Z.mod_unique _ _ (-1)); lia. }
  pose proof (Z.add_nocarry_lxor _ _ L) as A. unfold not32 in *. replace (x + (2 ^ 32 - 1 - x)) with (Z.ones 32) in A by (change (Z.ones 32) with (2 ^ 32 - 1); lia).
  rewrite A, <- Z.lxor_assoc, Z.lxor_nilpotent, Z.lxor_0_l. reflexivity.
Qed.
Lemma not32_not32 x : not32 (not32 x) = x. Proof. unfold not32. lia. Qed.
Lemma crc_le u us n : crc_bits (8 * S n) (Z.lxor u (2 ^ 8 * us)) = Z.lxor (crc_bits (8 * S n) u) (crc_bits (8 * n) us).
Proof.
  rewrite crc_bits_lxor. f_equal. replace (8 * S n)%nat with (8 + 8 * n)%nat by lia. rewrite crc_bits_add. f_equal.
  pose proof (crc_bits_high 8 0 us) as E. change (Z.of_nat 8) with 8 in E. rewrite Z.lxor_0_l in E. rewrite E. rewrite crc_bits_0. apply Z.lxor_0_l.
Qed.
Lemma low_high_k k a b : 0 <= k -> 0 <= a < 2 ^ k -> 0 <= b -> Z.lor a (Z.shiftl b k) = a + 2 ^ k * b.
Proof.
  intros Hk Ha Hb. rewrite Z.shiftl_mul_pow2 by exact Hk.
  assert (L : Z.land a (b * 2 ^ k) = 0).
  { apply Z.bits_inj'. intros n Hn. rewrite Z.land_spec, Z.bits_0. destruct (Z_lt_ge_dec n k) as [Q|Q].
    - rewrite Z.mul_pow2_bits_low by lia. apply Bool.andb_false_r.
    - rewrite <- (Z.mod_small a (2 ^ k)) by exact Ha. rewrite Z.mod_pow2_bits_high by lia. reflexivity. }
  rewrite <- Z.lxor_lor by exact L. rewrite <- Z.add_nocarry_lxor by exact L. lia.
Qed.
Lemma le_val_app a b : le_val (a ++ b) = le_val a + 256 ^ Z.of_nat (length a) * le_val b.
Proof.
  induction a as [|x a IH]; [change (le_val []) with 0; change (256 ^ Z.of_nat (length (@nil byte))) with 1; cbn [app]; lia|].
  cbn [app length]. rewrite !le_val_cons, IH, Nat2Z.inj_succ, Z.pow_succ_r by lia. lia.
Qed.
(** Eight bytes in one step. *)
Lemma slice8 c p0 p1 p2 p3 p4 p5 p6 p7 : 0 <= c < 2 ^ 32 ->
  let w := Z.lxor c (Z.lor (Z.lor (Z.lor (Zb p0) (Z.shiftl (Zb p1) 8)) (Z.shiftl (Zb p2) 16)) (Z.shiftl (Zb p3) 24)) in
  0 <= w < 2 ^ 32 /\
  crc_run c [p0; p1; p2; p3; p4; p5; p6; p7] =
  Z.lxor (Z.lxor (Z.lxor (Z.lxor (Z.lxor (Z.lxor (Z.lxor (crc_bits 8 (Zb p7)) (crc_bits 16 (Zb p6))) (crc_bits 24 (Zb p5))) (crc_bits 32 (Zb p4)))
    (crc_bits 40 (Z.shiftr w 24))) (crc_bits 48 (Z.land (Z.shiftr w 16) 255))) (crc_bits 56 (Z.land (Z.shiftr w 8) 255))) (crc_bits 64 (Z.land w 255)).
Proof.
  intros Hc w. pose proof (Zb_range p0) as R0. pose proof (Zb_range p1) as R1. pose proof (Zb_range p2) as R2. pose proof (Zb_range p3) as R3.
  assert (E4 : Z.lor (Z.lor (Z.lor (Zb p0) (Z.shiftl (Zb p1) 8)) (Z.shiftl (Zb p2) 16)) (Z.shiftl (Zb p3) 24) = le_val [p0; p1; p2; p3]).
  { rewrite (low_high_k 8) by lia. rewrite (low_high_k 16) by lia. rewrite (low_high_k 24) by lia. rewrite !le_val_cons. change (le_val []) with 0. lia. }
  pose proof (le_val_lt [p0; p1; p2; p3]) as L4. change (256 ^ Z.of_nat (length [p0; p1; p2; p3])) with (2 ^ 32) in L4.
  pose proof (le_val_nonneg [p0; p1; p2; p3]) as N4.
  assert (Hw : w = Z.lxor c (le_val [p0; p1; p2; p3])) by (unfold w; rewrite E4; reflexivity).
  assert (Rw : 0 <= w < 2 ^ 32) by (rewrite Hw; apply lxor_lt; lia). split; [exact Rw|].
  rewrite crc_run_val. cbn [length]. change (8 * 8)%nat with 64%nat.
  assert (Ev : Z.lxor c (le_val [p0; p1; p2; p3; p4; p5; p6; p7]) = Z.lxor w (2 ^ 32 * le_val [p4; p5; p6; p7])).
  { rewrite Hw, Z.lxor_assoc. f_equal. change [p0; p1; p2; p3; p4; p5; p6; p7] with ([p0; p1; p2; p3] ++ [p4; p5; p6; p7]). rewrite le_val_app.
    change (256 ^ Z.of_nat (length [p0; p1; p2; p3])) with (2 ^ 32). rewrite <- (low_high_k 32) by (lia || apply le_val_nonneg).
    pose proof (le_val_nonneg [p4; p5; p6; p7]) as N.
    assert (L : Z.land (le_val [p0; p1; p2; p3]) (Z.shiftl (le_val [p4; p5; p6; p7]) 32) = 0).
    { apply Z.bits_inj'. intros n Hn. rewrite Z.land_spec, Z.bits_0, Z.shiftl_mul_pow2 by lia. destruct (Z_lt_ge_dec n 32) as [Q|Q].
      - rewrite Z.mul_pow2_bits_low by lia. apply Bool.andb_false_r.
      - rewrite <- (Z.mod_small (le_val [p0; p1; p2; p3]) (2 ^ 32)) by lia. rewrite Z.mod_pow2_bits_high by lia. reflexivity. }
    rewrite <- Z.lxor_lor by exact L. f_equal. rewrite Z.shiftl_mul_pow2 by lia. lia. }
  rewrite Ev.
  (* the four bytes of w *)
  assert (Sw : w = Z.lxor (w mod 256) (2 ^ 8 * (w / 256))) by (apply split8; lia).
  assert (Q1 : 0 <= w / 256) by (apply Z.div_pos; lia).
  assert (Sw1 : w / 256 = Z.lxor ((w / 256) mod 256) (2 ^ 8 * (w / 256 / 256))) by (apply split8; lia).
  assert (Q2 : 0 <= w / 256 / 256) by (apply Z.div_pos; lia).
  assert (Sw2 : w / 256 / 256 = Z.lxor ((w / 256 / 256) mod 256) (2 ^ 8 * (w / 256 / 256 / 256))) by (apply split8; lia).
  assert (L255 : forall x, Z.land x 255 = x mod 256) by (intros x; change 255 with (Z.ones 8); rewrite Z.land_ones by lia; reflexivity).
  rewrite !L255, !Z.shiftr_div_pow2 by lia.
  change (2 ^ 24) with (256 * 256 * 256). change (2 ^ 16) with (256 * 256). rewrite <- !Z.div_div by lia. change (2 ^ 8) with 256.
  rewrite crc_bits_lxor.
  assert (A1 : crc_bits 64 w = Z.lxor (crc_bits 64 (w mod 256)) (Z.lxor (crc_bits 56 ((w / 256) mod 256))
     (Z.lxor (crc_bits 48 ((w / 256 / 256) mod 256)) (crc_bits 40 (w / 256 / 256 / 256))))).
  { rewrite Sw at 1. rewrite (crc_le _ _ 7). f_equal. change (8 * 7)%nat with 56%nat. rewrite Sw1 at 1. rewrite (crc_le _ _ 6). f_equal.
    change (8 * 6)%nat with 48%nat. rewrite Sw2 at 1. rewrite (crc_le _ _ 5). reflexivity. }
  assert (A2 : crc_bits 64 (2 ^ 32 * le_val [p4; p5; p6; p7]) = Z.lxor (crc_bits 32 (Zb p4)) (Z.lxor (crc_bits 24 (Zb p5))
     (Z.lxor (crc_bits 16 (Zb p6)) (crc_bits 8 (Zb p7))))).
  { pose proof (crc_bits_high 32 0 (le_val [p4; p5; p6; p7])) as E. change (Z.of_nat 32) with 32 in E. rewrite Z.lxor_0_l, crc_bits_0, Z.lxor_0_l in E.
    change 64%nat with (32 + 32)%nat. rewrite crc_bits_add. rewrite E. cbn [le_val].
    rewrite (crc_le _ _ 3). f_equal. rewrite (crc_le _ _ 2). f_equal. rewrite (crc_le _ _ 1). f_equal.
    rewrite (crc_le _ _ 0). change (crc_bits (8 * 0) 0) with 0. rewrite Z.lxor_0_r. reflexivity. }
  rewrite A1, A2.
  generalize (crc_bits 64 (w mod 256)) (crc_bits 56 ((w / 256) mod 256)) (crc_bits 48 ((w / 256 / 256) mod 256)) (crc_bits 40 (w / 256 / 256 / 256))
    (crc_bits 32 (Zb p4)) (crc_bits 24 (Zb p5)) (crc_bits 16 (Zb p6)) (crc_bits 8 (Zb p7)). clear. intros a b c d e f g h.
  apply Z.bits_inj'. intros n _. rewrite !Z.lxor_spec.
  destruct (Z.testbit a n), (Z.testbit b n), (Z.testbit c n), (Z.testbit d n), (Z.testbit e n), (Z.testbit f n), (Z.testbit g n), (Z.testbit h n); reflexivity.
Qed.
Lemma slicing_loop_ok : forall fuel p c, (length p <= fuel)%nat -> 0 <= c < 2 ^ 32 -> p <> [] ->
  exists a q, p = a ++ q /\ q <> [] /\ slicing_loop fuel (map tab (seq 0 8)) c p = Ret (crc_run c a, q).
Proof.
  induction fuel as [|f IH]; intros p c Hf Hc Np.
  - destruct p; [contradiction|cbn [length] in Hf; lia].
  - destruct p as [|p0 [|p1 [|p2 [|p3 [|p4 [|p5 [|p6 [|p7 [|p8 r]]]]]]]]]; try (eexists [], _; split; [reflexivity|]; split; [discriminate|reflexivity]); [contradiction|].
    destruct (slice8 c p0 p1 p2 p3 p4 p5 p6 p7 Hc) as [Rw E].
    remember (p8 :: r) as r' eqn:Er. cbn [slicing_loop]. rewrite Er. cbv zeta.
    set (w := Z.lxor c (Z.lor (Z.lor (Z.lor (Zb p0) (Z.shiftl (Zb p1) 8)) (Z.shiftl (Zb p2) 16)) (Z.shiftl (Zb p3) 24))) in *.
    rewrite (entry_get 0) by (lia || apply Zb_range). cbn [bind]. rewrite (entry_get 1) by (lia || apply Zb_range). cbn [bind].
    rewrite (entry_get 2) by (lia || apply Zb_range). cbn [bind]. rewrite (entry_get 3) by (lia || apply Zb_range). cbn [bind].
    assert (L255 : forall x, 0 <= Z.land x 255 < 256) by (intros x; change 255 with (Z.ones 8); rewrite Z.land_ones by lia; apply Z.mod_pos_bound; lia).
    rewrite (entry_get 4) by (lia || (rewrite Z.shiftr_div_pow2 by lia; split; [apply Z.div_pos; lia|apply Z.div_lt_upper_bound; lia])). cbn [bind].
    rewrite (entry_get 5) by (lia || apply L255). cbn [bind]. rewrite (entry_get 6) by (lia || apply L255). cbn [bind].
    rewrite (entry_get 7) by (lia || apply L255). cbn [bind].
    change (8 * 1)%nat with 8%nat. change (8 * 2)%nat with 16%nat. change (8 * 3)%nat with 24%nat. change (8 * 4)%nat with 32%nat.
    change (8 * 5)%nat with 40%nat. change (8 * 6)%nat with 48%nat. change (8 * 7)%nat with 56%nat. change (8 * 8)%nat with 64%nat.
    rewrite <- E.
    destruct (IH (p8 :: r) (crc_run c [p0; p1; p2; p3; p4; p5; p6; p7])) as (a & q & Ea & Nq & El).
    + subst r'. cbn [length] in *. lia.
    + apply crc_run_range. exact Hc.
    + discriminate.
    + exists ([p0; p1; p2; p3; p4; p5; p6; p7] ++ a), q. split; [rewrite Ea; reflexivity|]. split; [exact Nq|].
      rewrite crc_run_app. exact El.
Qed.
Theorem GoChecksumIEEE_ok p : GoChecksumIEEE p = Ret (crc32 p).
Proof.
  unfold GoChecksumIEEE. rewrite slicing_tables_eq. cbn [bind]. unfold slicing_update.
  change (crc32 p) with (Z.lxor (crc_run M32 p) M32).
  assert (R0 : 0 <= M32 < 2 ^ 32) by (unfold M32; lia).
  assert (S : forall q c, 0 <= c < 2 ^ 32 -> q <> [] ->
    match q with [] => Ret (not32 c) | _ => let! t := get (map tab (seq 0 8)) 0 in simple_update (not32 c) t q end = Ret (Z.lxor (crc_run c q) M32)).
  { intros q c Hc Nq. destruct q as [|x q]; [contradiction|]. change (get (map tab (seq 0 8)) 0) with (Ret (tab 0)). cbn [bind].
    unfold simple_update. rewrite not32_not32. rewrite simple_loop_ok by exact Hc. cbn [bind]. f_equal. apply not32_eq. apply crc_run_range. exact Hc. }
  destruct (Nat.leb_spec 16 (length p)) as [L|L].
  - change (not32 0) with M32. destruct (slicing_loop_ok (length p) p M32 (le_n _) R0) as (a & q & -> & Nq & E); [intros ->; cbn in L; lia|].
    rewrite E. cbn [bind]. rewrite crc_run_app. apply S; [apply crc_run_range; exact R0|exact Nq].
  - cbn [bind]. destruct p as [|x p]; [reflexivity|]. change (match x :: p with [] => Ret (not32 M32) | _ => let! t := get (map tab (seq 0 8)) 0 in simple_update (not32 M32) t (x :: p) end = Ret (Z.lxor (crc_run M32 (x :: p)) M32)). exact (S (x :: p) M32 R0 ltac:(discriminate)).
Qed.
