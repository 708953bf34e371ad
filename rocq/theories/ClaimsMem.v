(** ClaimsMem.v - the property statements of PropsMem.v with their proofs. *)
From Verif Require Import Base BaseFacts Prims Bip32Path Bip32Reg Bip32 Mem SpecMem MemFacts.
From Coq Require Import ZifyBool ZifyNat ZifyN.

Lemma part_b s lo hi b i : in_part s lo hi b i <-> (Nat.eqb b (sblk s) && (Nat.leb (soff s + lo) i && Nat.ltb i (soff s + hi)))%bool = true.
Proof. unfold in_part. rewrite !andb_true_iff, Nat.eqb_eq, Nat.leb_le, Nat.ltb_lt. tauto. Qed.
(** In proofs; for bip32/bip32.go:189, bip32/utils.go:41-52. *)
Definition mem1 : mem := [repeat x01 100].
(** In proofs; for bip32/bip32.go:189, bip32/utils.go:41-52. *)
Definition sl1 : sl := mkSl 0 0 10 100.
Lemma sl1_wf : wf_sl mem1 sl1.
Proof. unfold wf_sl, mem1, sl1. cbn. lia. Qed.

Lemma C52_same_result_l : forall spare H h s, prims_ok H -> wf_sl h s ->
  snd (Deserialize_m spare H h s) = Deserialize H (sread h s) /\ sread (fst (Deserialize_m spare H h s)) s = sread h s.
Proof.
intros spare H h s HP W. pose proof (Deserialize_m_spec spare H h s HP W) as A. destruct (Deserialize_m spare H h s) as [h' r]. cbn [fst snd]. destruct A as (A1 & _ & A3).
split; [exact A1|]. destruct W as (W1 & W2 & W3). apply sread_ext; [reflexivity|]. intros j Hj. rewrite A3 by exact W1.
replace (Nat.leb (soff s + slen s) (soff s + j)) with false by (symmetry; apply Nat.leb_gt; lia). rewrite andb_false_r. reflexivity.
Qed.

Lemma C52_memory_l : forall spare H h s, prims_ok H -> wf_sl h s -> forall b i, (b < length h)%nat ->
  byte_at (fst (Deserialize_m spare H h s)) b i = byte_at h b i \/
  ((slen s < 82 <= scap s)%nat /\ in_part s (slen s) 82 b i /\ byte_at (fst (Deserialize_m spare H h s)) b i = Some x00).
Proof.
intros spare H h s HP W b i Hb. pose proof (Deserialize_m_spec spare H h s HP W) as A. destruct (Deserialize_m spare H h s) as [h' r]. cbn [fst]. destruct A as (_ & _ & A3).
rewrite A3 by exact Hb. destruct (_ && _ && _)%bool eqn:C; [right|left; reflexivity]. apply andb_true_iff in C as [C C3]. apply andb_true_iff in C as [C1 C2]. apply andb_true_iff in C2 as [C2 C4].
apply Nat.ltb_lt in C2. apply Nat.leb_le in C4. split; [lia|]. split; [|reflexivity]. apply part_b. rewrite C1. exact C3.
Qed.

Lemma C52_kept_when_no_room_l : forall spare H h s, prims_ok H -> wf_sl h s -> ~ (slen s < 82 <= scap s)%nat -> memory_kept h (fst (Deserialize_m spare H h s)).
Proof.
intros spare H h s HP W N b i Hb. destruct (C52_memory_l spare H h s HP W b i Hb) as [E|(K & _)]; [exact E|contradiction].
Qed.

Lemma C52_ex_l : wf_sl mem1 sl1 /\ wf_sl mem1 (mkSl 0 5 82 95) /\ wf_sl mem1 (mkSl 0 5 20 40).
Proof.
unfold wf_sl, mem1, sl1. cbn. lia.
Qed.

Lemma C52_writes_after_argument_refuted_l : (forall spare H h s, prims_ok H -> wf_sl h s -> (slen s < 82 <= scap s)%nat ->
   forall b i, in_part s (slen s) 82 b i -> byte_at (fst (Deserialize_m spare H h s)) b i = Some x00) /\
(forall spare H, prims_ok H -> exists h s, wf_sl h s /\ ~ memory_kept h (fst (Deserialize_m spare H h s))).
Proof.
assert (A : forall spare H h s, prims_ok H -> wf_sl h s -> (slen s < 82 <= scap s)%nat ->
   forall b i, in_part s (slen s) 82 b i -> byte_at (fst (Deserialize_m spare H h s)) b i = Some x00).
{ intros spare H h s HP W L b i I. pose proof (Deserialize_m_spec spare H h s HP W) as A. destruct (Deserialize_m spare H h s) as [h' r]. cbn [fst]. destruct A as (_ & _ & A3).
  rewrite A3 by (destruct I as [-> _]; exact (proj1 W)). apply part_b in I. apply andb_true_iff in I as [I1 I2]. rewrite I1, I2.
  replace (Nat.ltb (slen s) 82) with true by (symmetry; apply Nat.ltb_lt; lia). replace (Nat.leb 82 (scap s)) with true by (symmetry; apply Nat.leb_le; lia). reflexivity. }
split; [exact A|]. intros spare H HP. exists mem1, sl1. split; [exact sl1_wf|]. intros K. specialize (K 0%nat 10%nat ltac:(cbn; lia)).
rewrite A in K; [discriminate K|exact HP|exact sl1_wf|cbn; lia|split; [reflexivity|cbn; lia]].
Qed.

Lemma C53_checksum_value_l : forall spare H h s, prims_ok H -> wf_sl h s ->
  let '(h', r) := AddChecksumDblSha256ToBytes_m spare H h s in
  wf_sl h' r /\ sread h' r = sread h s ++ firstn 4 (p_sha256 H (p_sha256 H (sread h s))) /\ sread h' s = sread h s.
Proof.
intros spare H h s HP W. pose proof (AddChecksum_m_spec spare H h s HP W) as A. destruct (AddChecksumDblSha256ToBytes_m spare H h s) as [h' r]. destruct A as (A1 & A2 & _ & A4 & _).
split; [exact A2|]. split; [exact A1|]. destruct W as (W1 & W2 & W3). apply sread_ext; [reflexivity|]. intros j Hj. rewrite A4 by exact W1.
replace (Nat.leb (soff s + slen s) (soff s + j)) with false by (symmetry; apply Nat.leb_gt; lia). rewrite andb_false_r. reflexivity.
Qed.

Lemma C53_checksum_fresh_l : forall spare H h s, prims_ok H -> wf_sl h s -> (scap s < slen s + 4)%nat ->
  let '(h', r) := AddChecksumDblSha256ToBytes_m spare H h s in memory_kept h h' /\ (length h <= sblk r)%nat.
Proof.
intros spare H h s HP W L. pose proof (AddChecksum_m_spec spare H h s HP W) as A. destruct (AddChecksumDblSha256ToBytes_m spare H h s) as [h' r]. destruct A as (_ & _ & _ & A4 & A5).
replace (Nat.leb (slen s + 4) (scap s)) with false in A4, A5 by (symmetry; apply Nat.leb_gt; lia). split; [|exact A5].
intros b i Hb. rewrite A4 by exact Hb. rewrite andb_false_r. reflexivity.
Qed.

Lemma C53_checksum_slice_l : forall H h s, prims_ok H -> wf_sl h s ->
  let '(h', r) := ChecksumDblSha256_m H h s in
  wf_sl h' r /\ sread h' r = firstn 4 (p_sha256 H (p_sha256 H (sread h s))) /\ memory_kept h h' /\ (length h <= sblk r)%nat /\
  sread h' (mkSl (sblk r) (soff r) (scap r) (scap r)) = p_sha256 H (p_sha256 H (sread h s)).
Proof.
intros H h s (S & _) W. unfold ChecksumDblSha256_m, alloc. assert (L : length (p_sha256 H (p_sha256 H (sread h s))) = 32%nat) by apply S. split; [|split; [|split; [|split]]].
- unfold wf_sl. cbn [sblk soff slen scap]. rewrite block_new, app_length, L. cbn [length]. lia.
- apply sread_new_prefix.
- intros b i Hb. apply byte_old. exact Hb.
- cbn [sblk]. lia.
- cbn [sblk soff scap]. apply sread_new. symmetry. exact L.
Qed.

Lemma C53_checksum_in_place_refuted_l : forall spare H h s, prims_ok H -> wf_sl h s -> (slen s + 4 <= scap s)%nat ->
  let '(h', r) := AddChecksumDblSha256ToBytes_m spare H h s in
  sblk r = sblk s /\ soff r = soff s /\
  (forall b i, (b < length h)%nat -> ~ in_part s (slen s) (slen s + 4) b i -> byte_at h' b i = byte_at h b i) /\
  (forall j, (j < 4)%nat -> byte_at h' (sblk s) (soff s + slen s + j) = nth_error (firstn 4 (p_sha256 H (p_sha256 H (sread h s)))) j).
Proof.
intros spare H h s HP W L. pose proof (AddChecksum_m_spec spare H h s HP W) as A. destruct (AddChecksumDblSha256ToBytes_m spare H h s) as [h' r]. destruct A as (_ & _ & _ & A4 & A5).
replace (Nat.leb (slen s + 4) (scap s)) with true in A4, A5 by (symmetry; apply Nat.leb_le; lia). destruct A5 as [A5 A6]. split; [exact A5|]. split; [exact A6|]. split.
- intros b i Hb N. rewrite A4 by exact Hb. rewrite andb_true_r. destruct (_ && _)%bool eqn:C; [|reflexivity]. exfalso. apply N. apply part_b.
  replace (soff s + (slen s + 4))%nat with (soff s + slen s + 4)%nat by lia. exact C.
- intros j Hj. rewrite A4 by exact (proj1 W). rewrite Nat.eqb_refl. cbn [andb]. replace (Nat.leb (soff s + slen s) (soff s + slen s + j)) with true by (symmetry; apply Nat.leb_le; lia).
  replace (Nat.ltb (soff s + slen s + j) (soff s + slen s + 4)) with true by (symmetry; apply Nat.ltb_lt; lia). cbn [andb]. f_equal. lia.
Qed.

Lemma C53_ex_l : wf_sl mem1 sl1 /\ (slen sl1 + 4 <= scap sl1)%nat /\ wf_sl mem1 (mkSl 0 0 100 100).
Proof.
unfold wf_sl, mem1, sl1. cbn. lia.
Qed.

Lemma C53_serialize_l : forall spare H h k, prims_ok H -> wf_kptr h k ->
  let '(h', (r, e)) := Serialize_m spare H h k in
  memory_kept h h' /\ e = snd (Serialize H (sread h (kslice k))) /\
  match r with
  | Some s => wf_sl h' s /\ sread h' s = fst (Serialize H (sread h (kslice k))) /\ (length h <= sblk s)%nat
  | None => e <> None
  end.
Proof.
intros spare H h k HP W. pose proof (Serialize_m_spec spare H h k HP W) as A. destruct (Serialize_m spare H h k) as [h' [r e]] eqn:E. destruct A as (A1 & A2 & A3).
split; [exact A2|]. split; [exact (f_equal fst A1)|]. destruct r as [s|].
- destruct (A3 s eq_refl) as [B1 B2]. split; [exact B1|]. split; [exact (f_equal snd A1)|exact B2].
- unfold Serialize_m in E. destruct (forallb _ _); [injection E as _ <-; discriminate|]. destruct (AddChecksumDblSha256ToBytes_m _ _ _ _). discriminate.
Qed.

Lemma C53_serialize_ex_l : wf_kptr mem1 (mkK 0 22) /\ forallb (fun v => Byte.eqb v x00) (sread mem1 (kslice (mkK 0 22))) = false.
Proof.
split; [unfold wf_kptr, mem1; cbn; lia|reflexivity].
Qed.

Lemma C66_intermediary_memory_l : forall spare H h k i, prims_ok H -> wf_kptr h k ->
  let '(h', r) := getIntermediary_m spare H h k i in
  memory_kept h h' /\ sread h' r = getIntermediary H (sread h (kslice k)) i /\ (length h <= sblk r)%nat.
Proof.
intros spare H h k i HP W. pose proof (getIntermediary_m_spec spare H h k i HP W) as A. destruct (getIntermediary_m spare H h k i) as [h' r]. destruct A as (A1 & A2 & A3).
split; [exact A3|]. split; [exact A1|exact A2].
Qed.

Lemma C66_setters_memory_l : forall lo hi v h k, wf_kptr h k -> (lo <= hi <= 78)%nat -> length v = (hi - lo)%nat ->
  (forall j, (j < hi - lo)%nat -> byte_at (set_field_m lo hi v h k) (kblk k) (koff k + lo + j) = nth_error v j) /\
  (forall b i, ~ in_part (kslice k) lo hi b i -> byte_at (set_field_m lo hi v h k) b i = byte_at h b i).
Proof.
intros lo hi v h k W L V. destruct (set_field_m_spec lo hi v h k W L V) as [_ A2]. split; [|exact A2].
intros j Hj. unfold set_field_m. destruct W as [W1 W2]. rewrite firstn_all2 by lia. rewrite byte_write; [|exact W1|lia]. rewrite Nat.eqb_refl. cbn [andb].
replace (Nat.leb (koff k + lo) (koff k + lo + j)) with true by (symmetry; apply Nat.leb_le; lia).
replace (Nat.ltb (koff k + lo + j) (koff k + lo + length v)) with true by (symmetry; apply Nat.ltb_lt; lia). cbn [andb]. f_equal. lia.
Qed.

Lemma C66_setters_agree_l : forall h k, wf_kptr h k ->
  (forall v, length v = 4%nat -> sread (set_field_m 0 4 v h k) (kslice k) = SetVersion v (sread h (kslice k))) /\
  (forall v, length v = 32%nat -> sread (set_field_m 13 45 v h k) (kslice k) = setChainCode v (sread h (kslice k))) /\
  (forall v, length v = 4%nat -> sread (set_field_m 5 9 v h k) (kslice k) = setFingerPrint v (sread h (kslice k))) /\
  (forall d, sread (set_field_m 4 5 [d] h k) (kslice k) = setDepth d (sread h (kslice k))) /\
  (forall v, length v = 32%nat -> sread (set_field_m 46 78 v h k) (kslice k) = setPvtKeyBytes v (sread h (kslice k))) /\
  (forall v, length v = 33%nat -> sread (set_field_m 45 78 v h k) (kslice k) = setPubKeyBytes v (sread h (kslice k))) /\
  (forall v, length v = 4%nat -> sread (set_field_m 9 13 v h k) (kslice k) = setChildNumber v (sread h (kslice k))).
Proof.
intros h k W. repeat split; intros v; try intros V; first [apply set_field_m_spec | refine (proj1 (set_field_m_spec _ _ _ _ _ _ _ _))]; try exact W; try lia; try exact V; reflexivity.
Qed.

Lemma C66_ex_l : wf_kptr mem1 (mkK 0 22) /\ length (sread mem1 (kslice (mkK 0 22))) = 78%nat.
Proof.
split; [unfold wf_kptr, mem1; cbn; lia|reflexivity].
Qed.
