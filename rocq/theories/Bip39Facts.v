(** Bip39Facts.v - proofs about the model of bip39/bip39.go. *)
From Verif Require Import Base BaseFacts GoStr GoStrFacts Prims Bip39 SpecBip39.
From Coq Require Import ZifyBool ZifyNat ZifyN.

(** ** Bit strings *)
Lemma bits_val_fold l a : fold_left (fun a (b : bool) => 2 * a + (if b then 1 else 0)) l a
  = a * 2 ^ Z.of_nat (length l) + bits_val l.
Proof.
  unfold bits_val. revert a; induction l as [|b l IH]; intros a.
  - simpl. lia.
  - cbn [fold_left length]. rewrite IH, (IH (2 * 0 + _)).
    rewrite Nat2Z.inj_succ, Z.pow_succ_r by lia. destruct b; ring.
Qed.
Lemma bits_val_app a b : bits_val (a ++ b) = bits_val a * 2 ^ Z.of_nat (length b) + bits_val b.
Proof. unfold bits_val at 1. rewrite fold_left_app. apply bits_val_fold. Qed.
Lemma bits_val_cons b l : bits_val (b :: l) = (if b then 1 else 0) * 2 ^ Z.of_nat (length l) + bits_val l.
Proof. change (b :: l) with ([b] ++ l). rewrite bits_val_app. destruct b; reflexivity. Qed.
Lemma bits_val_range l : 0 <= bits_val l < 2 ^ Z.of_nat (length l).
Proof.
  induction l as [|b l IH]; [simpl; unfold bits_val; simpl; lia|].
  rewrite bits_val_cons. cbn [length]. rewrite Nat2Z.inj_succ, Z.pow_succ_r by lia. destruct b; lia.
Qed.
Lemma bits_val_byte b : bits_val (bits_of_byte b) = Zb b.
Proof. destruct b; vm_compute; reflexivity. Qed.
Lemma bits_of_length s : length (bits_of s) = (8 * length s)%nat.
Proof. induction s as [|b s IH]; [reflexivity|]. cbn [bits_of flat_map]. rewrite app_length. fold (bits_of s).
  rewrite IH. simpl length. lia. Qed.
Lemma bits_val_bits_of s : bits_val (bits_of s) = be_Z s.
Proof.
  induction s as [|b s IH]; [reflexivity|]. cbn [bits_of flat_map]. fold (bits_of s).
  rewrite bits_val_app, bits_val_byte, bits_of_length, IH, be_Z_cons.
  rewrite p256_pow2. replace (Z.of_nat (8 * length s)) with (8 * Z.of_nat (length s)) by lia. ring.
Qed.

(** ** addChecksum *)
Lemma lor1 d : 0 <= d -> Z.lor (d * 2) 1 = d * 2 + 1.
Proof. intros H. rewrite Z.mul_comm. destruct d; [reflexivity|reflexivity|lia]. Qed.
Lemma addChecksum_loop_spec n i first d : 0 <= d ->
  addChecksum_loop n i first d
  = d * 2 ^ Z.of_nat n + bits_val (map (fun j => Z.testbit first (7 - (i + Z.of_nat j))) (seq 0 n)).
Proof.
  revert i d; induction n as [|n IH]; intros i d Hd.
  - simpl. unfold bits_val. simpl. lia.
  - cbn [addChecksum_loop]. rewrite IH by (destruct (Z.testbit first (7 - i)); [rewrite lor1|]; lia).
    cbn [seq map]. rewrite bits_val_cons, map_length, seq_length.
    replace (7 - (i + Z.of_nat 0)) with (7 - i) by lia.
    rewrite Nat2Z.inj_succ, Z.pow_succ_r by lia.
    rewrite <- (seq_shift n 0), map_map.
    rewrite (map_ext (fun j => Z.testbit first (7 - (i + Z.of_nat (S j))))
                     (fun j => Z.testbit first (7 - (i + 1 + Z.of_nat j)))) by (intros; f_equal; lia).
    destruct (Z.testbit first (7 - i)); [rewrite lor1 by lia|]; ring.
Qed.
Lemma first_bits n h : (n <= 8)%nat -> h <> [] ->
  firstn n (bits_of h) = map (fun j => Z.testbit (Zb (hd x00 h)) (7 - (0 + Z.of_nat j))) (seq 0 n).
Proof.
  intros Hn Hh. destruct h as [|b h]; [now elim Hh|]. cbn [hd bits_of flat_map].
  do 9 (destruct n as [|n]; [reflexivity|]). lia.
Qed.

(** In proofs; for bip39/bip39.go:115-212. *)
Definition csz (e : bytes) : nat := (length e / 4)%nat.
(** The integer the code works with. *)
(** In proofs; for bip39/bip39.go:115-212. *)
Definition full (H : Prims) (e : bytes) : Z := bits_val (bip39_bits H e).

Lemma div_8_32 k : (k * 8 / 32 = k / 4)%nat.
Proof. rewrite (Nat.mul_comm k 8). change 32%nat with (8 * 4)%nat. apply Nat.div_mul_cancel_l; lia. Qed.

Lemma sha_len H e : prims_ok H -> length (p_sha256 H e) = 32%nat.
Proof. intros [K _]. apply K. Qed.

Lemma size_cs e : entropy_size_ok e -> exists k, (4 <= k <= 8)%nat /\ length e = (4 * k)%nat /\ csz e = k.
Proof.
  unfold entropy_size_ok, csz. intros Hin.
  assert (C : length e = 16%nat \/ length e = 20%nat \/ length e = 24%nat \/ length e = 28%nat \/ length e = 32%nat)
    by (simpl in Hin; lia).
  destruct C as [C|[C|[C|[C|C]]]]; rewrite C; [exists 4%nat|exists 5%nat|exists 6%nat|exists 7%nat|exists 8%nat];
    (split; [lia|split; reflexivity]).
Qed.

Lemma full_eq H e : prims_ok H -> entropy_size_ok e ->
  full H e = be_Z e * 2 ^ Z.of_nat (csz e) + firstChecksumByte H e / 2 ^ (8 - Z.of_nat (csz e)).
Proof.
  intros HP He. destruct (size_cs e He) as (k & Hk & Hl & Hc). rewrite Hc.
  unfold full, bip39_bits. rewrite div_8_32. fold (csz e). rewrite Hc.
  pose proof (sha_len H e HP) as L. pose proof (bits_of_length (p_sha256 H e)) as BL.
  rewrite bits_val_app, bits_val_bits_of, firstn_length. rewrite BL, L.
  replace (Nat.min k (8 * 32)) with k by lia. f_equal.
  unfold firstChecksumByte. destruct (p_sha256 H e) as [|b t]; [discriminate|]. cbn [hd bits_of flat_map].
  rewrite firstn_app. change (length (bits_of_byte b)) with 8%nat. replace (k - 8)%nat with O by lia.
  cbn [firstn]. rewrite app_nil_r.
  assert (G : forall l, length l = 8%nat -> bits_val (firstn k l) = bits_val l / 2 ^ (8 - Z.of_nat k)).
  { intros l Hl8. rewrite <- (firstn_skipn k l) at 2. rewrite bits_val_app.
    replace (Z.of_nat (length (skipn k l))) with (8 - Z.of_nat k) by (rewrite skipn_length; lia).
    pose proof (bits_val_range (skipn k l)) as R.
    replace (Z.of_nat (length (skipn k l))) with (8 - Z.of_nat k) in R by (rewrite skipn_length; lia).
    rewrite Z.div_add_l by lia. rewrite (Z.div_small (bits_val (skipn k l))) by lia. lia. }
  rewrite G by reflexivity. rewrite bits_val_byte. reflexivity.
Qed.

Lemma be_addChecksum H e : prims_ok H -> entropy_size_ok e -> be_Z (addChecksum H e) = full H e.
Proof.
  intros HP He. destruct (size_cs e He) as (k & Hk & Hl & Hc).
  pose proof (sha_len H e HP) as L. pose proof (bits_of_length (p_sha256 H e)) as BL.
  unfold addChecksum. pose proof (be_Z_range e) as R. fold (csz e). rewrite Hc.
  rewrite addChecksum_loop_spec by lia. unfold firstChecksumByte.
  rewrite <- first_bits; [|lia|intros E; rewrite E in L; discriminate].
  unfold full, bip39_bits. rewrite div_8_32. fold (csz e). rewrite Hc.
  rewrite bits_val_app, bits_val_bits_of, firstn_length. rewrite BL, L.
  replace (Nat.min k (8 * 32)) with k by lia.
  apply be_Z_bytes.
  pose proof (bits_val_range (firstn k (bits_of (p_sha256 H e)))).
  pose proof (Z.pow_nonneg 2 (Z.of_nat k)). nia.
Qed.

Lemma full_length H e : prims_ok H -> entropy_size_ok e ->
  length (bip39_bits H e) = (11 * (3 * csz e))%nat /\ bip39_count e = (3 * csz e)%nat.
Proof.
  intros HP He. destruct (size_cs e He) as (k & Hk & Hl & Hc). rewrite Hc.
  unfold bip39_bits, bip39_count. rewrite div_8_32. fold (csz e). rewrite Hc.
  rewrite app_length, bits_of_length, firstn_length, bits_of_length, (sha_len H e HP), Hl.
  split; [lia|]. replace (4 * k * 8 + k)%nat with (3 * k * 11)%nat by lia. apply Nat.div_mul. lia.
Qed.

(** ** Base-2048 digits, most significant first *)
(** In proofs; for bip39/bip39.go:115-212. *)
Fixpoint idxs (n : nat) (x : Z) : list Z :=
  match n with O => [] | S k => idxs k (x / 2048) ++ [x mod 2048] end.
(** In proofs; for bip39/bip39.go:115-212. *)
Definition ofidx (l : list Z) : Z := fold_left (fun a i => a * 2048 + i) l 0.

Lemma idxs_length n x : length (idxs n x) = n.
Proof. revert x; induction n as [|n IH]; intros x; [reflexivity|]. simpl. rewrite app_length, IH. simpl. lia. Qed.
Lemma idxs_range n x : Forall (fun i => 0 <= i < 2048) (idxs n x).
Proof.
  revert x; induction n as [|n IH]; intros x; [constructor|]. simpl. apply Forall_app. split; [apply IH|].
  constructor; [|constructor]. apply Z.mod_pos_bound. lia.
Qed.
Lemma ofidx_app a b : ofidx (a ++ [b]) = ofidx a * 2048 + b.
Proof. unfold ofidx. rewrite fold_left_app. reflexivity. Qed.
Lemma ofidx_idxs n x : 0 <= x < 2048 ^ Z.of_nat n -> ofidx (idxs n x) = x.
Proof.
  revert x; induction n as [|n IH]; intros x Hx.
  - simpl in *. unfold ofidx. simpl. lia.
  - cbn [idxs]. rewrite ofidx_app, IH.
    + pose proof (Z.div_mod x 2048). lia.
    + rewrite Nat2Z.inj_succ, Z.pow_succ_r in Hx by lia. split; [apply Z.div_pos; lia|].
      apply Z.div_lt_upper_bound; lia.
Qed.
Lemma ofidx_range l : Forall (fun i => 0 <= i < 2048) l -> 0 <= ofidx l < 2048 ^ Z.of_nat (length l).
Proof.
  induction l as [|x l IH] using rev_ind; intros H; [unfold ofidx; simpl; lia|].
  apply Forall_app in H as [H1 H2]. inversion H2; subst. rewrite ofidx_app, app_length.
  replace (Z.of_nat (length l + length [x])) with (Z.succ (Z.of_nat (length l))) by (simpl; lia).
  rewrite Z.pow_succ_r by lia. specialize (IH H1). lia.
Qed.
Lemma idxs_ofidx l : Forall (fun i => 0 <= i < 2048) l -> idxs (length l) (ofidx l) = l.
Proof.
  induction l as [|x l IH] using rev_ind; intros H; [reflexivity|].
  apply Forall_app in H as [H1 H2]. inversion H2; subst. rewrite app_length, Nat.add_comm.
  cbn [length Nat.add idxs]. rewrite ofidx_app.
  rewrite Z.div_add_l, (Z.div_small x), Z.add_0_r by lia.
  rewrite Z.add_comm, Z.mod_add, Z.mod_small by lia. rewrite IH by exact H1. reflexivity.
Qed.

Lemma groups_length k l : length (groups11 k l) = k.
Proof. revert l; induction k as [|k IH]; intros l; simpl; [reflexivity|]. rewrite IH. reflexivity. Qed.
Lemma groups_app k l m : length l = (11 * k)%nat -> length m = 11%nat ->
  groups11 (S k) (l ++ m) = groups11 k l ++ [m].
Proof.
  revert l; induction k as [|k IH]; intros l Hl Hm.
  - destruct l; [|simpl in Hl; lia]. cbn [groups11 app]. rewrite firstn_all2 by lia. reflexivity.
  - cbn [groups11]. cbn [groups11] in IH. rewrite firstn_app, skipn_app.
    replace (11 - length l)%nat with O by lia. cbn [firstn skipn]. rewrite app_nil_r. cbn [app].
    f_equal. apply (IH (skipn 11 l)); [rewrite skipn_length; lia|exact Hm].
Qed.
Lemma groups_idxs k l : length l = (11 * k)%nat -> map bits_val (groups11 k l) = idxs k (bits_val l).
Proof.
  revert l; induction k as [|k IH]; intros l Hl; [reflexivity|].
  rewrite <- (firstn_skipn (11 * k) l). set (a := firstn (11 * k) l). set (m := skipn (11 * k) l).
  assert (Ha : length a = (11 * k)%nat) by (unfold a; rewrite firstn_length; lia).
  assert (Hm : length m = 11%nat) by (unfold m; rewrite skipn_length; lia).
  rewrite groups_app by assumption. rewrite map_app, IH by exact Ha. cbn [idxs map].
  rewrite bits_val_app, Hm. change (2 ^ Z.of_nat 11) with 2048.
  pose proof (bits_val_range m) as R. rewrite Hm in R. change (2 ^ Z.of_nat 11) with 2048 in R.
  rewrite Z.div_add_l, (Z.div_small (bits_val m)), Z.add_0_r by lia.
  rewrite (Z.add_comm _ (bits_val m)), Z.mod_add, Z.mod_small by lia. reflexivity.
Qed.
Lemma bip39_indices_eq H e : prims_ok H -> entropy_size_ok e ->
  bip39_indices H e = idxs (3 * csz e) (full H e).
Proof.
  intros HP He. destruct (full_length H e HP He) as [L C]. unfold bip39_indices. rewrite C.
  apply groups_idxs. exact L.
Qed.
Lemma full_range H e : prims_ok H -> entropy_size_ok e -> 0 <= full H e < 2048 ^ Z.of_nat (3 * csz e).
Proof.
  intros HP He. destruct (full_length H e HP He) as [L C].
  pose proof (bits_val_range (bip39_bits H e)) as R. rewrite L in R. unfold full.
  replace (Z.of_nat (11 * (3 * csz e))) with (11 * Z.of_nat (3 * csz e)) in R by lia.
  rewrite Z.pow_mul_r in R by lia. exact R.
Qed.

(** ** NewMnemonic *)
Lemma validate_spec n : validateEntropyBitSize (Z.of_nat n * 8) = None <-> In n [16; 20; 24; 28; 32]%nat.
Proof.
  unfold validateEntropyBitSize. rewrite Z.rem_mod_nonneg by lia.
  split.
  - destruct (_ || _) eqn:E; [discriminate|]. intros _.
    assert (n = 16 \/ n = 20 \/ n = 24 \/ n = 28 \/ n = 32)%nat.
    { pose proof (Z.div_mod (Z.of_nat n * 8) 32). pose proof (Z.mod_pos_bound (Z.of_nat n * 8) 32). lia. }
    simpl. lia.
  - intros Hin. simpl in Hin.
    destruct Hin as [<-|[<-|[<-|[<-|[<-|[]]]]]]; reflexivity.
Qed.
Lemma word_index x : be_Z (padByteSlice (Z_bytes (Z.land x 2047)) 2) = x mod 2048.
Proof.
  change 2047 with (Z.ones 11). rewrite Z.land_ones by lia. change (2 ^ 11) with 2048.
  pose proof (Z.mod_pos_bound x 2048). unfold padByteSlice.
  rewrite be_Z_zeros, be_Z_bytes by lia. reflexivity.
Qed.
Lemma NewMnemonic_loop_spec wl n x acc : (2048 <= length wl)%nat ->
  NewMnemonic_loop wl n x acc = Ret (map (fun i => nth (Z.to_nat i) wl []) (idxs n x) ++ acc).
Proof.
  intros Hl. revert x acc; induction n as [|n IH]; intros x acc; [reflexivity|].
  cbn [NewMnemonic_loop]. rewrite word_index. pose proof (Z.mod_pos_bound x 2048).
  rewrite (nth_error_nth' wl []) by lia. rewrite IH. cbn [idxs]. rewrite map_app, <- app_assoc. reflexivity.
Qed.

Theorem NewMnemonic_ok H st e : prims_ok H -> (2048 <= length (wordList st))%nat -> entropy_size_ok e ->
  NewMnemonic H st e = Ret (Join (B " ") (bip39_words H (wordList st) e), None).
Proof.
  intros HP Hl He. unfold NewMnemonic.
  assert (V : validateEntropyBitSize (Z.of_nat (length e) * 8) = None) by (apply validate_spec; exact He).
  rewrite V. destruct (size_cs e He) as (k & Hk & Hlen & Hc).
  replace ((Z.of_nat (length e) * 8 + Z.of_nat (length e) * 8 / 32) / 11) with (Z.of_nat (3 * k)).
  2:{ rewrite Hlen. replace (Z.of_nat (4 * k) * 8) with (Z.of_nat k * 32) by lia.
      rewrite Z.div_mul by lia. replace (Z.of_nat k * 32 + Z.of_nat k) with (Z.of_nat (3 * k) * 11) by lia.
      rewrite Z.div_mul by lia. reflexivity. }
  rewrite Nat2Z.id, NewMnemonic_loop_spec by exact Hl. rewrite app_nil_r.
  rewrite be_addChecksum by assumption. unfold bip39_words. rewrite bip39_indices_eq by assumption.
  rewrite Hc. reflexivity.
Qed.
Theorem NewMnemonic_bad H st e : ~ entropy_size_ok e ->
  NewMnemonic H st e = Ret ([], Some ErrEntropyLengthInvalid).
Proof.
  intros He. unfold NewMnemonic.
  destruct (validateEntropyBitSize (Z.of_nat (length e) * 8)) as [x|] eqn:V.
  - unfold validateEntropyBitSize in V. destruct (_ || _); [|discriminate]. injection V as <-. reflexivity.
  - apply validate_spec in V. now elim He.
Qed.
Lemma bip39_words_length H wl e : prims_ok H -> entropy_size_ok e ->
  length (bip39_words H wl e) = (3 * (length e / 4))%nat.
Proof.
  intros HP He. unfold bip39_words. rewrite map_length, bip39_indices_eq, idxs_length by assumption. reflexivity.
Qed.

(** ** The reverse map *)
(** Last position of a word. *)
(** In proofs; for bip39/bip39.go:115-212. *)
Fixpoint last_pos (w : bytes) (l : list bytes) (i : Z) : option Z :=
  match l with
  | [] => None
  | v :: r => match last_pos w r (i + 1) with
              | Some j => Some j
              | None => if bytes_eqb w v then Some i else None
              end
  end.
Lemma fill_map_get l : forall i m w, map_get (fill_map i l m) w =
  match last_pos w l i with Some j => Some j | None => map_get m w end.
Proof.
  induction l as [|v l IH]; intros i m w; [reflexivity|]. cbn [fill_map last_pos]. rewrite IH. cbn [map_get].
  destruct (last_pos w l (i + 1)); [reflexivity|]. destruct (bytes_eqb w v); reflexivity.
Qed.
Lemma last_pos_some w l : forall i j, last_pos w l i = Some j ->
  i <= j < i + Z.of_nat (length l) /\ nth_error l (Z.to_nat (j - i)) = Some w.
Proof.
  induction l as [|v l IH]; intros i j E; [discriminate|]. cbn [last_pos] in E.
  destruct (last_pos w l (i + 1)) as [k|] eqn:L.
  - injection E as <-. apply IH in L as [R N]. simpl length. split; [lia|].
    replace (Z.to_nat (k - i)) with (S (Z.to_nat (k - (i + 1)))) by lia. exact N.
  - destruct (bytes_eqb w v) eqn:Ew; [|discriminate]. injection E as <-. apply bytes_eqb_spec in Ew as ->.
    simpl length. split; [lia|]. rewrite Z.sub_diag. reflexivity.
Qed.
Lemma last_pos_none w l i : last_pos w l i = None <-> ~ In w l.
Proof.
  revert i; induction l as [|v l IH]; intros i; [simpl; split; auto|]. cbn [last_pos In].
  specialize (IH (i + 1)). destruct (last_pos w l (i + 1)) as [k|].
  - split; [discriminate|]. intros N. exfalso. apply N. right.
    destruct (in_dec (list_eq_dec Byte.byte_eq_dec) w l) as [I|I]; [exact I|]. apply IH in I. discriminate.
  - destruct (bytes_eqb w v) eqn:E.
    + apply bytes_eqb_spec in E as ->. split; [discriminate|]. intros N. exfalso. apply N. left. reflexivity.
    + apply bytes_eqb_neq in E. split; [|reflexivity]. intros _ [K|K]; [congruence|]. apply IH; [reflexivity|exact K].
Qed.
Lemma last_pos_last w l : forall i j k, last_pos w l i = Some j -> nth_error l k = Some w -> Z.of_nat k <= j - i.
Proof.
  induction l as [|v l IH]; intros i j k E N; [destruct k; discriminate|]. cbn [last_pos] in E.
  destruct k as [|k].
  - pose proof (last_pos_some w (v :: l) i j E) as [R _]. lia.
  - simpl in N. destruct (last_pos w l (i + 1)) as [q|] eqn:L.
    + injection E as <-. specialize (IH _ _ _ L N). lia.
    + apply last_pos_none in L. apply nth_error_In in N. contradiction.
Qed.
Lemma last_pos_nodup l k w : NoDup l -> nth_error l k = Some w -> last_pos w l 0 = Some (Z.of_nat k).
Proof.
  intros ND N. destruct (last_pos w l 0) as [j|] eqn:E.
  - apply last_pos_some in E as [R M]. rewrite Z.sub_0_r in M. f_equal.
    assert (Z.to_nat j = k); [|lia].
    eapply (proj1 (NoDup_nth_error l) ND); [apply nth_error_Some; rewrite M; discriminate|congruence].
  - apply last_pos_none in E. apply nth_error_In in N. contradiction.
Qed.
Lemma SetWordList_get l w : map_get (wordMap (SetWordList l)) w = last_pos w l 0.
Proof. unfold SetWordList. cbn [wordMap]. rewrite fill_map_get. destruct (last_pos w l 0); reflexivity. Qed.

(** ** EntropyFromMnemonic *)
(** In proofs; for bip39/bip39.go:115-212. *)
Definition decode_idx (wl ws : list bytes) (is : list Z) : Prop :=
  Forall2 (fun w i => last_pos w wl 0 = Some i) ws is.

Lemma Forall2_length {A B} (R : A -> B -> Prop) l m : Forall2 R l m -> length l = length m.
Proof. intros H. induction H; simpl; lia. Qed.
Lemma decode_step b i : 0 <= b -> 0 <= i < 2048 -> Z.lor (b * 2048) (be_Z (Z_be 2 i)) = b * 2048 + i.
Proof.
  intros Hb Hi. rewrite be_Z_be. change (p256 2) with 65536. rewrite (Z.mod_small i) by lia.
  assert (L : Z.land (b * 2048) i = 0).
  { apply Z.bits_inj'. intros n Hn. rewrite Z.land_spec, Z.bits_0. change 2048 with (2 ^ 11).
    destruct (Z.ltb_spec n 11).
    - rewrite Z.mul_pow2_bits_low by lia. reflexivity.
    - destruct (Z.eq_dec i 0) as [->|]; [rewrite Z.bits_0; apply andb_false_r|].
      rewrite (Z.bits_above_log2 i n); [apply andb_false_r|lia|].
      assert (Z.log2 i < 11) by (apply Z.log2_lt_pow2; lia). lia. }
  rewrite <- (Z.lxor_lor _ _ L). symmetry. apply Z.add_nocarry_lxor. exact L.
Qed.
Lemma decode_words_ok wl ws is : (length wl <= 2048)%nat -> decode_idx wl ws is ->
  forall b, 0 <= b -> decode_words (wordMap (SetWordList wl)) ws b = inl (fold_left (fun a i => a * 2048 + i) is b).
Proof.
  intros Hl HD. induction HD as [|w i ws is Hw HD IH]; intros b Hb; [reflexivity|].
  cbn [decode_words fold_left]. rewrite SetWordList_get, Hw.
  apply last_pos_some in Hw as [R _]. rewrite decode_step by lia. apply IH. lia.
Qed.
Lemma decode_idx_range wl ws is : (length wl <= 2048)%nat -> decode_idx wl ws is ->
  Forall (fun i => 0 <= i < 2048) is.
Proof.
  intros Hl HD. induction HD as [|w i ws is Hw HD IH]; constructor; [|exact IH].
  apply last_pos_some in Hw as [R _]. lia.
Qed.
Lemma decode_idx_exists wl ws : Forall (fun w => In w wl) ws -> exists is, decode_idx wl ws is.
Proof.
  intros H. induction H as [|w ws Hw H [is IH]]; [exists []; constructor|].
  destruct (last_pos w wl 0) as [i|] eqn:E; [exists (i :: is); constructor; assumption|].
  apply last_pos_none in E. contradiction.
Qed.
(** The first word that is not in the list. *)
(** In proofs; for bip39/bip39.go:115-212. *)
Definition first_unknown (wl ws : list bytes) (w : bytes) : Prop :=
  exists p q, ws = p ++ w :: q /\ Forall (fun v => In v wl) p /\ ~ In w wl.
Lemma decode_words_bad wl ws w : first_unknown wl ws w ->
  forall b, decode_words (wordMap (SetWordList wl)) ws b = inr (ErrWord w).
Proof.
  intros (p & q & -> & Hp & Hw). induction Hp as [|v p Hv Hp IH]; intros b; cbn [app decode_words].
  - rewrite SetWordList_get. apply (last_pos_none w wl 0) in Hw. rewrite Hw. reflexivity.
  - rewrite SetWordList_get. destruct (last_pos v wl 0) as [i|] eqn:E; [apply IH|].
    apply last_pos_none in E. contradiction.
Qed.
Lemma known_or_unknown wl ws : Forall (fun w => In w wl) ws \/ exists w, first_unknown wl ws w.
Proof.
  induction ws as [|w ws IH]; [left; constructor|].
  destruct (in_dec (list_eq_dec Byte.byte_eq_dec) w wl) as [I|N].
  - destruct IH as [IH|(v & p & q & -> & Hp & Hv)].
    + left. constructor; assumption.
    + right. exists v, (w :: p), q. split; [reflexivity|]. split; [constructor; assumption|exact Hv].
  - right. exists w, [], ws. split; [reflexivity|]. split; [constructor|exact N].
Qed.

Lemma validWordCount_spec n : validWordCount n = true <-> exists k, (4 <= k <= 8)%nat /\ n = (3 * k)%nat.
Proof.
  unfold validWordCount. split.
  - rewrite !andb_true_iff, Nat.eqb_eq, !Nat.leb_le. intros [[M L] U]. exists (n / 3)%nat.
    pose proof (Nat.div_mod n 3). lia.
  - intros (k & Hk & ->). rewrite Nat.mul_comm, Nat.mod_mul by lia.
    rewrite !andb_true_iff, Nat.eqb_eq, !Nat.leb_le. lia.
Qed.
Lemma mask_eq k : (4 <= k <= 8)%nat -> checksumMask (3 * k) = 2 ^ Z.of_nat k - 1.
Proof. intros Hk. do 9 (destruct k as [|k]; [try lia; reflexivity|]). lia. Qed.
Lemma shift_eq k : (4 <= k <= 8)%nat -> checksumShift (3 * k) = 2 ^ (8 - Z.of_nat k).
Proof. intros Hk. do 9 (destruct k as [|k]; [try lia; reflexivity|]). lia. Qed.

(** What the code does with the integer of a sentence of 3k known words. *)
(** In proofs; for bip39/bip39.go:115-212. *)
Definition dec_entropy (k : nat) (b : Z) : bytes := Z_be (4 * k) (b / 2 ^ Z.of_nat k).
(** In proofs; for bip39/bip39.go:115-212. *)
Definition cs_ok (H : Prims) (k : nat) (b : Z) : bool :=
  b mod 2 ^ Z.of_nat k =? firstChecksumByte H (dec_entropy k b) / 2 ^ (8 - Z.of_nat k).

Lemma pow_2048_k k : 2048 ^ Z.of_nat (3 * k) = p256 (4 * k) * 2 ^ Z.of_nat k.
Proof.
  rewrite p256_pow2. change 2048 with (2 ^ 11). rewrite <- Z.pow_mul_r by lia.
  rewrite <- Z.pow_add_r by lia. f_equal. lia.
Qed.
Lemma dec_range k b : 0 <= b < 2048 ^ Z.of_nat (3 * k) -> 0 <= b / 2 ^ Z.of_nat k < p256 (4 * k).
Proof.
  intros Hb. rewrite pow_2048_k in Hb. pose proof (Z.pow_pos_nonneg 2 (Z.of_nat k)).
  split; [apply Z.div_pos; lia|]. apply Z.div_lt_upper_bound; lia.
Qed.

Lemma entropyOfWords_eq H wl ws is k : (4 <= k <= 8)%nat -> (length wl <= 2048)%nat ->
  length ws = (3 * k)%nat -> decode_idx wl ws is ->
  entropyOfWords H (SetWordList wl) ws =
  if cs_ok H k (ofidx is) then (dec_entropy k (ofidx is), None) else ([], Some ErrChecksumIncorrect).
Proof.
  intros Hk Hl Hn HD. unfold entropyOfWords. rewrite (decode_words_ok wl ws is Hl HD 0) by lia.
  change (fold_left (fun a i : Z => a * 2048 + i) is 0) with (ofidx is).
  pose proof (decode_idx_range wl ws is Hl HD) as R. apply ofidx_range in R.
  rewrite <- (Forall2_length _ _ _ HD), Hn in R. set (b := ofidx is) in *. clearbody b.
  rewrite Hn, mask_eq by exact Hk.
  assert (P : 0 < 2 ^ Z.of_nat k) by (apply Z.pow_pos_nonneg; lia).
  replace (2 ^ Z.of_nat k - 1) with (Z.ones (Z.of_nat k)) by (rewrite Z.ones_equiv; lia).
  rewrite Z.land_ones by lia. rewrite Z.ones_equiv. replace (Z.pred (2 ^ Z.of_nat k) + 1) with (2 ^ Z.of_nat k) by lia.
  replace (3 * k / 3 * 4)%nat with (4 * k)%nat by (rewrite (Nat.mul_comm 3 k), Nat.div_mul by lia; lia).
  pose proof (dec_range k b R) as D.
  replace (padByteSlice (Z_bytes (b / 2 ^ Z.of_nat k)) (4 * k)) with (dec_entropy k b)
    by (unfold padByteSlice, dec_entropy; rewrite Z_bytes_length; apply Z_bytes_pad; exact D).
  unfold cs_ok. destruct (Nat.eqb_spec (3 * k) 24) as [E|E].
  - assert (k = 8%nat) as -> by lia. change (8 - Z.of_nat 8) with 0. rewrite Z.pow_0_r, Z.div_1_r. reflexivity.
  - rewrite shift_eq by exact Hk. reflexivity.
Qed.

Lemma dec_entropy_size k b : (4 <= k <= 8)%nat -> entropy_size_ok (dec_entropy k b) /\ csz (dec_entropy k b) = k.
Proof.
  intros Hk. unfold entropy_size_ok, csz, dec_entropy. rewrite Z_be_length.
  rewrite (Nat.mul_comm 4 k), Nat.div_mul by lia. split; [|reflexivity]. simpl. lia.
Qed.
Lemma cs_ok_full H k b : prims_ok H -> (4 <= k <= 8)%nat -> 0 <= b < 2048 ^ Z.of_nat (3 * k) ->
  cs_ok H k b = true <-> full H (dec_entropy k b) = b.
Proof.
  intros HP Hk Hb. destruct (dec_entropy_size k b Hk) as [S C]. rewrite full_eq by assumption. rewrite C.
  unfold cs_ok. rewrite Z.eqb_eq.
  assert (E : be_Z (dec_entropy k b) = b / 2 ^ Z.of_nat k) by (unfold dec_entropy; rewrite be_Z_be; apply Z.mod_small, dec_range; exact Hb).
  rewrite E. pose proof (Z.pow_pos_nonneg 2 (Z.of_nat k)).
  pose proof (Z.div_mod b (2 ^ Z.of_nat k)). lia.
Qed.
Lemma dec_full H e : prims_ok H -> entropy_size_ok e -> dec_entropy (csz e) (full H e) = e.
Proof.
  intros HP He. destruct (size_cs e He) as (k & Hk & Hl & Hc).
  rewrite full_eq by assumption. rewrite Hc. unfold dec_entropy.
  assert (R : 0 <= firstChecksumByte H e / 2 ^ (8 - Z.of_nat k) < 2 ^ Z.of_nat k).
  { unfold firstChecksumByte. pose proof (Zb_range (hd x00 (p_sha256 H e))).
    pose proof (Z.pow_pos_nonneg 2 (8 - Z.of_nat k)). split; [apply Z.div_pos; lia|].
    apply Z.div_lt_upper_bound; [lia|]. rewrite <- Z.pow_add_r by lia.
    replace (8 - Z.of_nat k + Z.of_nat k) with 8 by lia. lia. }
  rewrite Z.div_add_l by lia. rewrite (Z.div_small (_ / _)) by exact R. rewrite Z.add_0_r, <- Hl.
  apply Z_be_be_Z; reflexivity.
Qed.

(** Words and indices of a good list correspond. *)
Lemma decode_idx_map wl is : good_list wl -> Forall (fun i => 0 <= i < 2048) is ->
  decode_idx wl (map (fun i => nth (Z.to_nat i) wl []) is) is.
Proof.
  intros [HL ND] H. induction H as [|i is Hi H IH]; [constructor|]. cbn [map]. constructor; [|exact IH].
  rewrite (last_pos_nodup wl (Z.to_nat i)); [f_equal; lia|exact ND|]. apply nth_error_nth'. lia.
Qed.
Lemma decode_idx_nth wl ws is : decode_idx wl ws is -> ws = map (fun i => nth (Z.to_nat i) wl []) is.
Proof.
  intros HD. induction HD as [|w i ws is Hw HD IH]; [reflexivity|]. cbn [map]. f_equal; [|exact IH].
  apply last_pos_some in Hw as [R N]. rewrite Z.sub_0_r in N. symmetry. apply nth_error_nth. exact N.
Qed.
Lemma decode_idx_in wl ws is : decode_idx wl ws is -> Forall (fun w => In w wl) ws.
Proof.
  intros HD. induction HD as [|w i ws is Hw HD IH]; constructor; [|exact IH].
  apply last_pos_some in Hw as [R N]. eapply nth_error_In. exact N.
Qed.

Theorem entropyOfWords_iff H wl ws e : prims_ok H -> good_list wl -> validWordCount (length ws) = true ->
  entropyOfWords H (SetWordList wl) ws = (e, None) <-> (entropy_size_ok e /\ ws = bip39_words H wl e).
Proof.
  intros HP HG HV. pose proof HG as [HL ND]. apply validWordCount_spec in HV as (k & Hk & Hn).
  split.
  - intros E. destruct (known_or_unknown wl ws) as [K|(w & U)].
    2:{ unfold entropyOfWords in E. rewrite (decode_words_bad wl ws w U) in E. discriminate. }
    destruct (decode_idx_exists wl ws K) as [is HD].
    rewrite (entropyOfWords_eq H wl ws is k Hk ltac:(lia) Hn HD) in E.
    destruct (cs_ok H k (ofidx is)) eqn:C; [|discriminate]. injection E as <-.
    pose proof (decode_idx_range wl ws is ltac:(lia) HD) as R. pose proof (ofidx_range is R) as RO.
    pose proof (Forall2_length _ _ _ HD) as LL. rewrite <- LL, Hn in RO.
    apply cs_ok_full in C; [|exact HP|exact Hk|exact RO].
    destruct (dec_entropy_size k (ofidx is) Hk) as [S Cz]. split; [exact S|].
    unfold bip39_words. rewrite bip39_indices_eq by assumption. rewrite Cz, C.
    rewrite <- Hn, LL, idxs_ofidx by exact R. apply decode_idx_nth. exact HD.
  - intros [He Ew].
    pose proof (bip39_words_length H wl e HP He) as LW. rewrite <- Ew, Hn in LW. fold (csz e) in LW.
    assert (k = csz e) as -> by lia.
    unfold bip39_words in Ew. rewrite bip39_indices_eq in Ew by assumption.
    pose proof (decode_idx_map wl _ HG (idxs_range (3 * csz e) (full H e))) as HD. rewrite <- Ew in HD.
    rewrite (entropyOfWords_eq H wl ws _ (csz e) Hk ltac:(lia) Hn HD).
    pose proof (full_range H e HP He) as FR. rewrite ofidx_idxs by exact FR.
    assert (C : cs_ok H (csz e) (full H e) = true)
      by (apply cs_ok_full; [exact HP|exact Hk|exact FR|]; rewrite dec_full by assumption; reflexivity).
    rewrite C, dec_full by assumption. reflexivity.
Qed.

Theorem EntropyFromMnemonic_iff H wl m e : prims_ok H -> good_list wl ->
  EntropyFromMnemonic H (SetWordList wl) m = (e, None) <->
  (entropy_size_ok e /\ Fields m = bip39_words H wl e).
Proof.
  intros HP HG. unfold EntropyFromMnemonic, splitMnemonicWords.
  destruct (validWordCount (length (Fields m))) eqn:V.
  - apply entropyOfWords_iff; assumption.
  - split; [discriminate|]. intros [He E].
    assert (validWordCount (length (Fields m)) = true); [|congruence].
    rewrite E, bip39_words_length by assumption. apply validWordCount_spec.
    destruct (size_cs e He) as (k & Hk & Hl & Hc). fold (csz e). exists k. lia.
Qed.

Lemma bip39_words_in H wl e w : prims_ok H -> good_list wl -> entropy_size_ok e ->
  In w (bip39_words H wl e) -> In w wl.
Proof.
  intros HP [HL _] He Hin. unfold bip39_words in Hin. rewrite bip39_indices_eq in Hin by assumption.
  apply in_map_iff in Hin as (i & <- & Hi).
  pose proof (proj1 (Forall_forall _ _) (idxs_range (3 * csz e) (full H e)) i Hi) as R. cbv beta in R.
  apply nth_In. lia.
Qed.
Lemma fields_word_ok w : Fields w = [w] <-> word_ok w = true.
Proof.
  split; [|apply Fields_word]. intros E. pose proof (Fields_ok w) as F. rewrite E in F.
  inversion F; assumption.
Qed.
Lemma text_words_ok ws : text_words ws <-> Forall (fun w => word_ok w = true) ws.
Proof. unfold text_words. split; apply Forall_impl; intros w; apply fields_word_ok. Qed.
Lemma Fields_bip39 H wl e : prims_ok H -> good_list wl -> text_words wl -> entropy_size_ok e ->
  Fields (Join (B " ") (bip39_words H wl e)) = bip39_words H wl e.
Proof.
  intros HP HG HT He. apply Fields_Join. apply Forall_forall. intros w Hw.
  apply text_words_ok in HT. apply (proj1 (Forall_forall _ _) HT).
  eapply bip39_words_in; eassumption.
Qed.

Theorem roundtrip H wl e m : prims_ok H -> good_list wl -> text_words wl -> entropy_size_ok e ->
  NewMnemonic H (SetWordList wl) e = Ret (m, None) ->
  EntropyFromMnemonic H (SetWordList wl) m = (e, None).
Proof.
  intros HP HG HT He E. rewrite NewMnemonic_ok in E by (try assumption; destruct HG as [HL _]; simpl; lia).
  injection E as <-. apply EntropyFromMnemonic_iff; [assumption|assumption|]. split; [exact He|].
  apply Fields_bip39; assumption.
Qed.
