(** ClaimsCodec.v - the property statements of PropsCodec.v with their proofs. *)
From Verif Require Import Base Bip32 Bip39 Hash GoStr Base58 WordLists Bip39InitFacts GoCodec GoCodecFacts GoCrcFacts SpecCodec SpecCodecFacts CrcErrFacts.
From Coq Require Import ZifyBool ZifyNat ZifyN.

Lemma C87_base58_l : forall b, GoEncode58 b = Ret (Encode58 b) /\ GoDecode58 b = Ret (Decode58 b).
Proof.
intros b. exact (conj (GoEncode58_ok b) (GoDecode58_ok b)).
Qed.

Lemma C87_base58_ex_l : GoEncode58 [x00; x01; xff] = Ret (B "19p") /\ GoDecode58 (B "19p") = Ret [x00; x01; xff] /\ GoDecode58 (B "10p") = Ret [].
Proof.
vm_compute. repeat split.
Qed.

Lemma C87_hex_l : (forall s, GoHexEncode s = Ret (HexEncode s)) /\
(forall s b e, GoHexDecode s = Ret (b, e) <-> hex_reads s b e) /\
(forall s, exists b e, GoHexDecode s = Ret (b, e) /\ HexDecode s = match e with None => Some b | Some _ => None end).
Proof.
exact (conj GoHexEncode_ok (conj GoHexDecode_iff GoHexDecode_model)).
Qed.

Lemma C87_hex_ex_l : GoHexEncode [x0a; xff] = Ret (B "0aff") /\ GoHexDecode (B "0aFf") = Ret ([x0a; xff], None) /\
GoHexDecode (B "0aFg") = Ret ([x0a], Some (InvalidByteError x67)) /\ GoHexDecode (B "0aF") = Ret ([x0a], Some HexErrLength) /\
GoHexDecode (B "0ag") = Ret ([x0a], Some (InvalidByteError x67)).
Proof.
vm_compute. repeat split.
Qed.

Lemma C87_crc_l : forall p, GoChecksumIEEE p = Ret (crc32 p).
Proof.
exact GoChecksumIEEE_ok.
Qed.

Lemma C87_crc_ex_l : crc32 (B "123456789") = 0xcbf43926 /\ (16 <= length (B "The quick brown fox jumps over the lazy dog"))%nat /\
GoChecksumIEEE (B "The quick brown fox jumps over the lazy dog") = Ret 0x414fa339.
Proof.
vm_compute. repeat split; repeat constructor.
Qed.

Lemma C88_polynomial_l : (forall m c, crc_of m c <-> c = crc32 m) /\
(forall m c, GoChecksumIEEE m = Ret c <-> crc_of m c) /\
(forall text lit, wl_init text lit = Ret tt <-> exists c, crc_of text c /\ Sprintf_x c = lit).
Proof.
split; [exact crc_of_iff|]. split.
- intros m c. rewrite GoChecksumIEEE_ok, crc_of_iff. split; [intros E; injection E as E; symmetry; exact E|intros ->; reflexivity].
- intros text lit. rewrite wl_init_iff. split.
  + intros E. exists (crc32 text). split; [apply crc_of_iff; reflexivity|exact E].
  + intros (c & Hc & E). apply crc_of_iff in Hc. subst c. exact E.
Qed.

Lemma C88_polynomial_ex_l : G = 0x104c11db7 /\ message_poly (B "ab") = 0x8646 /\ crc_of (B "123456789") 0xcbf43926 /\ wl_init (B "123456789") (B "cbf43926") = Ret tt.
Proof.
split; [reflexivity|]. split; [reflexivity|]. split; [apply crc_of_iff; vm_compute; reflexivity|vm_compute; reflexivity].
Qed.

Lemma C88_noticed_l : (forall t t' j, length t = length t' -> t <> t' -> 0 <= j -> (forall i, 0 <= i < j \/ j + 32 <= i -> bit_of t i = bit_of t' i) ->
  crc32 t <> crc32 t' /\ forall lit, wl_init t lit = Ret tt -> wl_init t' lit = Panic) /\
(forall t t' i j, length t = length t' -> 0 <= i < j -> j - i < 2 ^ 32 - 1 ->
  (forall k, 0 <= k -> (bit_of t k <> bit_of t' k <-> k = i \/ k = j)) ->
  crc32 t <> crc32 t' /\ forall lit, wl_init t lit = Ret tt -> wl_init t' lit = Panic).
Proof.
assert (P : forall t t', crc32 t <> crc32 t' -> forall lit, wl_init t lit = Ret tt -> wl_init t' lit = Panic).
{ intros t t' N lit E. apply wl_init_iff in E. apply wl_init_panic. intros E'. apply N.
  pose proof (crc32_range t). pose proof (crc32_range t'). apply Sprintf_x_inj; [lia|lia|congruence]. }
split.
- intros t t' j L N Hj Hb. pose proof (burst_noticed t t' j L N Hj Hb) as E. split; [exact E|apply P; exact E].
- intros t t' i j L Hij Hd Hb. pose proof (two_noticed t t' i j L Hij Hd Hb) as E. split; [exact E|apply P; exact E].
Qed.

Lemma C88_noticed_ex_l : (let t := B "abandon" in let t' := B "abcndon" in length t = length t' /\ t <> t' /\ forall i, 0 <= i < 17 \/ 17 + 32 <= i -> bit_of t i = bit_of t' i) /\
(let t := B "abandon" in let t' := B "acandoo" in length t = length t' /\ forall k, 0 <= k -> (bit_of t k <> bit_of t' k <-> k = 8 \/ k = 48)).
Proof.
assert (H : forall s s' : bytes, length s = length s' -> forall f : Z -> bool,
  forallb (fun k => Bool.eqb (xorb (bit_of s (Z.of_nat k)) (bit_of s' (Z.of_nat k))) (f (Z.of_nat k))) (seq 0 (8 * length s)) = true ->
  forall k, 0 <= k -> k < 8 * Z.of_nat (length s) -> xorb (bit_of s k) (bit_of s' k) = f k).
{ intros s s' L f F k Hk Hl. rewrite forallb_forall in F. specialize (F (Z.to_nat k) ltac:(apply in_seq; lia)).
  rewrite Z2Nat.id in F by exact Hk. apply Bool.eqb_prop in F. exact F. }
assert (O : forall s k, 8 * Z.of_nat (length s) <= k -> bit_of s k = false).
{ intros s k Hk. unfold bit_of. rewrite nth_overflow by lia. apply Z.bits_0. }
split; cbv zeta.
- split; [reflexivity|]. split; [discriminate|]. intros i Hi.
  destruct (Z_lt_ge_dec i 56) as [L|L]; [|rewrite !O by (cbn; lia); reflexivity].
  pose proof (H (B "abandon") (B "abcndon") eq_refl (fun k => k =? 17) eq_refl i ltac:(lia) ltac:(cbn; lia)) as E. cbv beta in E.
  destruct (Z.eqb_spec i 17); [lia|]. destruct (bit_of (B "abandon") i), (bit_of (B "abcndon") i); (reflexivity || discriminate E).
- split; [reflexivity|]. intros k Hk.
  destruct (Z_lt_ge_dec k 56) as [L|L].
  + pose proof (H (B "abandon") (B "acandoo") eq_refl (fun k => (k =? 8) || (k =? 48)) eq_refl k Hk ltac:(cbn; lia)) as E. cbv beta in E.
    destruct (Z.eqb_spec k 8), (Z.eqb_spec k 48), (bit_of (B "abandon") k), (bit_of (B "acandoo") k); cbn in E; try discriminate E;
      (split; [intros X; (tauto || (exfalso; apply X; reflexivity))|intros [X|X]; (discriminate || lia)]).
  + rewrite !O by (cbn; lia). split; [intros X; destruct (X eq_refl)|lia].
Qed.
