(** PropsAny.v - word lists of any kind and key arrays of any kind (C98, C99).
    Every theorem is closed by the lemma of the same name in ClaimsAny.v; an Example beside it shows that its
    hypotheses can be met. *)
From Verif Require Import Base BaseFacts GoStr GoStrFacts HexFacts Prims Hash HashFacts Secp SecpPrime Fp ECGroup SpecEC SecpGroup SecpOrder SecpFacts Base58 Base58Facts SpecBip32 SpecPath Bip32Path Bip32Reg Bip32 Bip32RegFacts Bip32KeyFacts Bip32Facts Bip32Facts2 Claims32 GoField GoFieldFacts GoCurve GoCurveFacts ClaimsCurve QuadRec GoBig GoBigFacts ClaimsBig Bip39 SpecBip39 Bip39Facts Bip39Facts2 WordLists WlSpanish AllLists Bip39ListFacts ClaimsAny.

(** C98: word lists that SetWordList is given, of any length and with repetitions. *)

Theorem C98_panics : forall H l e, prims_ok H -> entropy_size_ok e ->
  (NewMnemonic H (SetWordList l) e = Panic <-> exists i, In i (bip39_indices H e) /\ Z.of_nat (length l) <= i) /\
  (NewMnemonic H (SetWordList l) e <> Panic -> NewMnemonic H (SetWordList l) e = Ret (Join (B " ") (bip39_words H l e), None)).
Proof. exact C98_panics_l. Qed.
Print Assumptions C98_panics.

Theorem C98_short_refuted : forall H l n, prims_ok H -> (length l < 2048)%nat -> In n [16; 20; 24; 28; 32]%nat -> NewMnemonic H (SetWordList l) (repeat xff n) = Panic.
Proof. exact C98_short_refuted_l. Qed.
Print Assumptions C98_short_refuted.

Theorem C98_repeats : forall H l e m, prims_ok H -> entropy_size_ok e -> length l = 2048%nat -> text_words l -> NewMnemonic H (SetWordList l) e = Ret (m, None) ->
  (EntropyFromMnemonic H (SetWordList l) m = (e, None) <->
   forall i j, In i (bip39_indices H e) -> nth_error l j = nth_error l (Z.to_nat i) -> (j <= Z.to_nat i)%nat).
Proof. exact C98_repeats_l. Qed.
Print Assumptions C98_repeats.

Theorem C98_repeats_refuted : forall H l, prims_ok H -> length l = 2048%nat -> text_words l -> ~ NoDup l ->
  exists e m, entropy_size_ok e /\ NewMnemonic H (SetWordList l) e = Ret (m, None) /\ EntropyFromMnemonic H (SetWordList l) m <> (e, None).
Proof. exact C98_repeats_refuted_l. Qed.
Print Assumptions C98_repeats_refuted.

Theorem C98_first_words : forall H l q e, prims_ok H -> length l = 2048%nat -> NewMnemonic H (SetWordList (l ++ q)) e = NewMnemonic H (SetWordList l) e.
Proof. exact C98_first_words_l. Qed.
Print Assumptions C98_first_words.

Theorem C98_long_names_refuted : forall H l e a i t b j, prims_ok H -> entropy_size_ok e -> NoDup l -> text_words l -> (2048 <= length l)%nat ->
  bip39_indices H e = a ++ i :: t :: b -> Z.odd i = true -> j = i \/ j = i - 1 -> 2048 + t < Z.of_nat (length l) ->
  EntropyFromMnemonic H (SetWordList l) (Join (B " ") (map (fun i => nth (Z.to_nat i) l []) (a ++ j :: 2048 + t :: b))) = (e, None).
Proof. exact C98_long_names_refuted_l. Qed.
Print Assumptions C98_long_names_refuted.

Theorem C98_long_entropy_refuted : forall H l, prims_ok H -> NoDup l -> text_words l -> (2048 < length l)%nat ->
  exists m e, EntropyFromMnemonic H (SetWordList l) m = (e, None) /\ length e = 17%nat.
Proof. exact C98_long_entropy_refuted_l. Qed.
Print Assumptions C98_long_entropy_refuted.

Example C98_ex : prims_ok RealPrims /\ text_words spanish /\ length spanish = 2048%nat /\
(exists l, NoDup l /\ text_words l /\ (2048 < length l)%nat /\ firstn 2048 l = spanish) /\
(exists l, ~ NoDup l /\ text_words l /\ length l = 2048%nat) /\
(exists e a i t b, entropy_size_ok e /\ bip39_indices RealPrims e = a ++ i :: t :: b /\ Z.odd i = true /\ t = 0).
Proof. exact C98_ex_l. Qed.

(** C99: NewChildKey on every 78 bytes: private keys with any number in them, public keys with any first byte and any x. *)

Theorem C99_private : forall H T v d f n c s i, prims_ok H -> after_init T -> fields_ok v f n c -> pvt_registered v -> 0 <= s < 2 ^ 256 -> 0 <= i < 2 ^ 32 ->
  let pub := if s mod secp_n =? 0 then x02 :: repeat x00 32 else serPb (kG (s mod secp_n)) in
  let I := p_hmac512 H c ((if 2 ^ 31 <=? i then x00 :: ser256 s else pub) ++ ser32 i) in
  let child := (IL I + s) mod secp_n in
  NewChildKey H T (xprv v d f n c s) i =
    Ret (xprv v (bZ (Zb d + 1)) (firstn 4 (hash160 H pub)) (ser32 i) (IR I) child, if child =? 0 then Some ErrInvalidPrivateKey else None).
Proof. exact C99_private_l. Qed.
Print Assumptions C99_private.

Theorem C99_same_children : forall H T v d f n c s s' i, prims_ok H -> after_init T -> fields_ok v f n c -> 0 <= s < 2 ^ 256 -> 0 <= s' < 2 ^ 256 -> s mod secp_n = s' mod secp_n -> 0 <= i < 2 ^ 31 ->
  NewChildKey H T (xprv v d f n c s) i = NewChildKey H T (xprv v d f n c s') i.
Proof. exact C99_same_children_l. Qed.
Print Assumptions C99_same_children.

Theorem C99_invalid_private_refuted : forall H T v d f n c s i, prims_ok H -> after_init T -> fields_ok v f n c -> pvt_registered v -> s = 0 \/ secp_n <= s < 2 ^ 256 -> 0 <= i < 2 ^ 32 ->
  ~ valid_xkey (xprv v d f n c s) /\
  ((IL (p_hmac512 H c ((if 2 ^ 31 <=? i then x00 :: ser256 s else if s mod secp_n =? 0 then x02 :: repeat x00 32 else serPb (kG (s mod secp_n))) ++ ser32 i)) + s) mod secp_n <> 0 ->
   exists k', NewChildKey H T (xprv v d f n c s) i = Ret (k', None)).
Proof. exact C99_invalid_private_refuted_l. Qed.
Print Assumptions C99_invalid_private_refuted.

Theorem C99_public : forall H T v d f n c k0 xs i, prims_ok H -> after_init T -> fields_ok v f n c -> pub_registered v -> k0 <> x00 -> length xs = 32%nat -> 0 <= i < 2 ^ 31 ->
  let I := p_hmac512 H c ((k0 :: xs) ++ ser32 i) in
  exists r e, NewChildKey H T (xkey v d f n c (k0 :: xs)) i = Ret (r, e) /\
    (IL I mod secp_n = 0 -> e = Some ErrInvalidPublicKey) /\
    (IL I mod secp_n <> 0 -> e = None /\ exists data, length data = 33%nat /\ r = xkey v (bZ (Zb d + 1)) (firstn 4 (hash160 H (k0 :: xs))) (ser32 i) (IR I) data).
Proof. exact C99_public_l. Qed.
Print Assumptions C99_public.

Theorem C99_off_curve_refuted : forall H T v d f n c k0 xs i, prims_ok H -> after_init T -> fields_ok v f n c -> pub_registered v -> k0 <> x00 -> length xs = 32%nat -> 0 <= i < 2 ^ 31 ->
  (forall y, ~ oncurve (PAff (toF (be_Z xs)) y)) ->
  let I := p_hmac512 H c ((k0 :: xs) ++ ser32 i) in
  IL I mod secp_n <> 0 ->
  ~ valid_xkey (xkey v d f n c (k0 :: xs)) /\
  NewChildKey H T (xkey v d f n c (k0 :: xs)) i = Ret (xkey v (bZ (Zb d + 1)) (firstn 4 (hash160 H (k0 :: xs))) (ser32 i) (IR I)
    (if Byte.eqb k0 x02 && (be_Z xs =? 0) then serPb (kG (IL I)) else comp (cadd (kG (IL I)) (PAff (toF (be_Z xs)) F0))), None).
Proof. exact C99_off_curve_refuted_l. Qed.
Print Assumptions C99_off_curve_refuted.

Theorem C99_other_header_refuted : forall H T v d f n c k0 xs y i, prims_ok H -> after_init T -> fields_ok v f n c -> pub_registered v -> ~ In k0 [x00; x02; x03] -> length xs = 32%nat -> 0 <= i < 2 ^ 31 ->
  oncurve (PAff (toF (be_Z xs)) y) -> (exists w, fv (Fopp y) = (w * w) mod secp_p) ->
  let I := p_hmac512 H c ((k0 :: xs) ++ ser32 i) in
  IL I mod secp_n <> 0 ->
  ~ valid_xkey (xkey v d f n c (k0 :: xs)) /\
  NewChildKey H T (xkey v d f n c (k0 :: xs)) i = Ret (xkey v (bZ (Zb d + 1)) (firstn 4 (hash160 H (k0 :: xs))) (ser32 i) (IR I)
    (if (secp_p <=? be_Z xs) && (fst (enc (kG (IL I))) =? be_Z xs mod secp_p) then x02 :: repeat x00 32
     else comp (cadd (kG (IL I)) (PAff (toF (be_Z xs)) y))), None).
Proof. exact C99_other_header_refuted_l. Qed.
Print Assumptions C99_other_header_refuted.

Example C99_ex : after_init T0 /\ fields_ok xpub_version z4 z4 z32 /\ pub_registered xpub_version /\ pvt_registered xprv_version /\
(exists H, prims_ok H /\ (forall k x, IL (p_hmac512 H k x) = 1)) /\ (forall y, ~ oncurve (PAff (toF (be_Z (repeat x00 32))) y)) /\
(forall x y, oncurve (PAff x y) -> exists y', oncurve (PAff x y') /\ exists w, fv (Fopp y') = (w * w) mod secp_p).
Proof. exact C99_ex_l. Qed.
