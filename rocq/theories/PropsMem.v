(** PropsMem.v - memory shared with callers (C52, C53, C66).
    Every theorem is closed by the lemma of the same name in ClaimsMem.v; an Example beside it shows that its
    hypotheses can be met. *)
From Verif Require Import Base BaseFacts Prims Bip32Path Bip32Reg Bip32 Mem SpecMem MemFacts ClaimsMem.

(** (** ** C52: Deserialize and the caller's memory. [spare] is the unspecified growth of append. *) *)

Theorem C52_same_result : forall spare H h s, prims_ok H -> wf_sl h s ->
  snd (Deserialize_m spare H h s) = Deserialize H (sread h s) /\ sread (fst (Deserialize_m spare H h s)) s = sread h s.
Proof. exact C52_same_result_l. Qed.
Print Assumptions C52_same_result.

Theorem C52_memory : forall spare H h s, prims_ok H -> wf_sl h s -> forall b i, (b < length h)%nat ->
  byte_at (fst (Deserialize_m spare H h s)) b i = byte_at h b i \/
  ((slen s < 82 <= scap s)%nat /\ in_part s (slen s) 82 b i /\ byte_at (fst (Deserialize_m spare H h s)) b i = Some x00).
Proof. exact C52_memory_l. Qed.
Print Assumptions C52_memory.

Theorem C52_kept_when_no_room : forall spare H h s, prims_ok H -> wf_sl h s -> ~ (slen s < 82 <= scap s)%nat -> memory_kept h (fst (Deserialize_m spare H h s)).
Proof. exact C52_kept_when_no_room_l. Qed.
Print Assumptions C52_kept_when_no_room.

Example C52_ex : wf_sl mem1 sl1 /\ wf_sl mem1 (mkSl 0 5 82 95) /\ wf_sl mem1 (mkSl 0 5 20 40).
Proof. exact C52_ex_l. Qed.

(** (** Deviation: with spare capacity the bytes after the argument, up to position 82, are set to zero. *) *)

Theorem C52_writes_after_argument_refuted : (forall spare H h s, prims_ok H -> wf_sl h s -> (slen s < 82 <= scap s)%nat ->
   forall b i, in_part s (slen s) 82 b i -> byte_at (fst (Deserialize_m spare H h s)) b i = Some x00) /\
(forall spare H, prims_ok H -> exists h s, wf_sl h s /\ ~ memory_kept h (fst (Deserialize_m spare H h s))).
Proof. exact C52_writes_after_argument_refuted_l. Qed.
Print Assumptions C52_writes_after_argument_refuted.

(** (** ** C53: checksums and serialisation. *) *)

Theorem C53_checksum_value : forall spare H h s, prims_ok H -> wf_sl h s ->
  let '(h', r) := AddChecksumDblSha256ToBytes_m spare H h s in
  wf_sl h' r /\ sread h' r = sread h s ++ firstn 4 (p_sha256 H (p_sha256 H (sread h s))) /\ sread h' s = sread h s.
Proof. exact C53_checksum_value_l. Qed.
Print Assumptions C53_checksum_value.

Theorem C53_checksum_fresh : forall spare H h s, prims_ok H -> wf_sl h s -> (scap s < slen s + 4)%nat ->
  let '(h', r) := AddChecksumDblSha256ToBytes_m spare H h s in memory_kept h h' /\ (length h <= sblk r)%nat.
Proof. exact C53_checksum_fresh_l. Qed.
Print Assumptions C53_checksum_fresh.

Theorem C53_checksum_slice : forall H h s, prims_ok H -> wf_sl h s ->
  let '(h', r) := ChecksumDblSha256_m H h s in
  wf_sl h' r /\ sread h' r = firstn 4 (p_sha256 H (p_sha256 H (sread h s))) /\ memory_kept h h' /\ (length h <= sblk r)%nat /\
  sread h' (mkSl (sblk r) (soff r) (scap r) (scap r)) = p_sha256 H (p_sha256 H (sread h s)).
Proof. exact C53_checksum_slice_l. Qed.
Print Assumptions C53_checksum_slice.

(** (** Deviation: with room for the checksum it is written into the caller's array. *) *)

Theorem C53_checksum_in_place_refuted : forall spare H h s, prims_ok H -> wf_sl h s -> (slen s + 4 <= scap s)%nat ->
  let '(h', r) := AddChecksumDblSha256ToBytes_m spare H h s in
  sblk r = sblk s /\ soff r = soff s /\
  (forall b i, (b < length h)%nat -> ~ in_part s (slen s) (slen s + 4) b i -> byte_at h' b i = byte_at h b i) /\
  (forall j, (j < 4)%nat -> byte_at h' (sblk s) (soff s + slen s + j) = nth_error (firstn 4 (p_sha256 H (p_sha256 H (sread h s)))) j).
Proof. exact C53_checksum_in_place_refuted_l. Qed.
Print Assumptions C53_checksum_in_place_refuted.

Example C53_ex : wf_sl mem1 sl1 /\ (slen sl1 + 4 <= scap sl1)%nat /\ wf_sl mem1 (mkSl 0 0 100 100).
Proof. exact C53_ex_l. Qed.

Theorem C53_serialize : forall spare H h k, prims_ok H -> wf_kptr h k ->
  let '(h', (r, e)) := Serialize_m spare H h k in
  memory_kept h h' /\ e = snd (Serialize H (sread h (kslice k))) /\
  match r with
  | Some s => wf_sl h' s /\ sread h' s = fst (Serialize H (sread h (kslice k))) /\ (length h <= sblk s)%nat
  | None => e <> None
  end.
Proof. exact C53_serialize_l. Qed.
Print Assumptions C53_serialize.

Example C53_serialize_ex : wf_kptr mem1 (mkK 0 22) /\ forallb (fun v => Byte.eqb v x00) (sread mem1 (kslice (mkK 0 22))) = false.
Proof. exact C53_serialize_ex_l. Qed.

(** (** ** C66: child derivation and setters in memory. *) *)

Theorem C66_intermediary_memory : forall spare H h k i, prims_ok H -> wf_kptr h k ->
  let '(h', r) := getIntermediary_m spare H h k i in
  memory_kept h h' /\ sread h' r = getIntermediary H (sread h (kslice k)) i /\ (length h <= sblk r)%nat.
Proof. exact C66_intermediary_memory_l. Qed.
Print Assumptions C66_intermediary_memory.

Theorem C66_setters_memory : forall lo hi v h k, wf_kptr h k -> (lo <= hi <= 78)%nat -> length v = (hi - lo)%nat ->
  (forall j, (j < hi - lo)%nat -> byte_at (set_field_m lo hi v h k) (kblk k) (koff k + lo + j) = nth_error v j) /\
  (forall b i, ~ in_part (kslice k) lo hi b i -> byte_at (set_field_m lo hi v h k) b i = byte_at h b i).
Proof. exact C66_setters_memory_l. Qed.
Print Assumptions C66_setters_memory.

Theorem C66_setters_agree : forall h k, wf_kptr h k ->
  (forall v, length v = 4%nat -> sread (set_field_m 0 4 v h k) (kslice k) = SetVersion v (sread h (kslice k))) /\
  (forall v, length v = 32%nat -> sread (set_field_m 13 45 v h k) (kslice k) = setChainCode v (sread h (kslice k))) /\
  (forall v, length v = 4%nat -> sread (set_field_m 5 9 v h k) (kslice k) = setFingerPrint v (sread h (kslice k))) /\
  (forall d, sread (set_field_m 4 5 [d] h k) (kslice k) = setDepth d (sread h (kslice k))) /\
  (forall v, length v = 32%nat -> sread (set_field_m 46 78 v h k) (kslice k) = setPvtKeyBytes v (sread h (kslice k))) /\
  (forall v, length v = 33%nat -> sread (set_field_m 45 78 v h k) (kslice k) = setPubKeyBytes v (sread h (kslice k))) /\
  (forall v, length v = 4%nat -> sread (set_field_m 9 13 v h k) (kslice k) = setChildNumber v (sread h (kslice k))).
Proof. exact C66_setters_agree_l. Qed.
Print Assumptions C66_setters_agree.

Example C66_ex : wf_kptr mem1 (mkK 0 22) /\ length (sread mem1 (kslice (mkK 0 22))) = 78%nat.
Proof. exact C66_ex_l. Qed.
