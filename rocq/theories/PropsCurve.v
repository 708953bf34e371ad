(** PropsCurve.v - the secp256k1 library (C92-C95).
    Every theorem is closed by the lemma of the same name in ClaimsCurve.v; an Example beside it shows that its
    hypotheses can be met. *)
From Verif Require Import Base BaseFacts GoStr HexFacts Prims Hash HashFacts Secp SecpPrime Fp ECGroup SpecEC SecpGroup SecpOrder SecpFacts Base58 Base58Facts SpecBip32 SpecPath Bip32Path Bip32Reg Bip32 Bip32RegFacts Bip32KeyFacts Bip32Facts Bip32Facts2 Claims32 GoField GoFieldFacts GoFieldBytes GoCurve GoCurveFacts ClaimsCurve.

(** C92: curve.Add of the secp256k1 library, field words and all: points, coordinates that are not reduced, points off the curve. *)

Theorem C92_points : forall P Q, oncurve P -> oncurve Q -> KoblitzAdd (fst (enc P)) (snd (enc P)) (fst (enc Q)) (snd (enc Q)) = enc (cadd P Q).
Proof. exact C92_points_l. Qed.
Print Assumptions C92_points.

Theorem C92_affine : forall x1 y1 x2 y2 : Fp, PAff x1 y1 <> PAff F0 F0 -> PAff x2 y2 <> PAff F0 F0 ->
  KoblitzAdd (fv x1) (fv y1) (fv x2) (fv y2) = enc (cadd (PAff x1 y1) (PAff x2 y2)).
Proof. exact C92_affine_l. Qed.
Print Assumptions C92_affine.

Theorem C92_add : forall x1 y1 x2 y2, 0 <= x1 -> 0 <= y1 -> 0 <= x2 -> 0 <= y2 -> KoblitzAdd x1 y1 x2 y2 = CurveAdd (x1, y1) (x2, y2).
Proof. exact C92_add_l. Qed.
Print Assumptions C92_add.

Theorem C92_residues : forall x1 y1 x2 y2, 0 <= x1 < 2 ^ 256 -> 0 <= y1 < 2 ^ 256 -> 0 <= x2 < 2 ^ 256 -> 0 <= y2 < 2 ^ 256 ->
  ~ (x1 = 0 /\ y1 = 0) -> ~ (x2 = 0 /\ y2 = 0) -> ~ (x1 mod secp_p = 0 /\ y1 mod secp_p = 0) -> ~ (x2 mod secp_p = 0 /\ y2 mod secp_p = 0) ->
  KoblitzAdd x1 y1 x2 y2 =
    if (x1 mod secp_p =? x2 mod secp_p) && (negb (x1 =? x2) || negb (y1 =? y2)) then (0, 0)
    else enc (cadd (PAff (toF x1) (toF y1)) (PAff (toF x2) (toF y2))).
Proof. exact C92_residues_l. Qed.
Print Assumptions C92_residues.

Theorem C92_residues_refuted : exists x1 x2 y, 0 <= x1 < 2 ^ 256 /\ x1 mod secp_p = x2 mod secp_p /\ oncurve (PAff (toF x2) (toF y)) /\ KoblitzAdd x1 y x2 y = (0, 0) /\ KoblitzAdd x2 y x2 y <> (0, 0).
Proof. exact C92_residues_refuted_l. Qed.
Print Assumptions C92_residues_refuted.

Example C92_ex : exists P Q, oncurve P /\ oncurve Q /\ P <> PInf /\ Q <> PInf /\ cadd P Q <> PInf /\ P <> Q.
Proof. exact C92_ex_l. Qed.

(** C93: curve.ScalarBaseMult of the library, whose table of points is [bytePoints_ok]. *)

Theorem C93_base : forall tab k, bytePoints_ok tab -> KoblitzScalarBaseMult tab k = Ret (enc (kG (be_Z k))).
Proof. exact C93_base_l. Qed.
Print Assumptions C93_base.

Theorem C93_model : forall tab k, bytePoints_ok tab -> KoblitzScalarBaseMult tab k = Ret (ScalarBaseMult k).
Proof. exact C93_model_l. Qed.
Print Assumptions C93_model.

Theorem C93_scalar : forall k, (length k <= 32)%nat -> ScalarBytes (ScalarSetByteSlice k) = Z_be 32 (be_Z k mod secp_n).
Proof. exact C93_scalar_l. Qed.
Print Assumptions C93_scalar.

Theorem C93_infinity : forall tab k, bytePoints_ok tab -> (KoblitzScalarBaseMult tab k = Ret (0, 0) <-> be_Z k mod secp_n = 0).
Proof. exact C93_infinity_l. Qed.
Print Assumptions C93_infinity.

Example C93_ex : exists tab, bytePoints_ok tab.
Proof. exact C93_ex_l. Qed.

(** C94: the ten words of a field value: within the magnitudes the library documents nothing overflows, and every function *)

(** computes modulo p. *)

Theorem C94_add : forall m m' f g, 0 <= m -> 0 <= m' -> m + m' <= 60 -> mag m f -> mag m' g -> mag (m + m') (Add f g) /\ lval (Add f g) mod secp_p = (lval f + lval g) mod secp_p.
Proof. exact C94_add_l. Qed.
Print Assumptions C94_add.

Theorem C94_mul : forall m m' f g, 0 <= m <= 8 -> 0 <= m' <= 8 -> mag m f -> mag m' g -> mag 1 (Mul f g) /\ lval (Mul f g) mod secp_p = (lval f * lval g) mod secp_p.
Proof. exact C94_mul_l. Qed.
Print Assumptions C94_mul.

Theorem C94_square : forall m f, 0 <= m <= 8 -> mag m f -> mag 1 (Square f) /\ lval (Square f) mod secp_p = (lval f * lval f) mod secp_p.
Proof. exact C94_square_l. Qed.
Print Assumptions C94_square.

Theorem C94_mulint : forall k m f, 0 <= k -> 0 <= m -> k * m <= 60 -> mag m f -> mag (k * m) (MulInt k f) /\ lval (MulInt k f) mod secp_p = (k * lval f) mod secp_p.
Proof. exact C94_mulint_l. Qed.
Print Assumptions C94_mulint.

Theorem C94_negate : forall m f, 0 <= m <= 40 -> mag m f -> mag (m + 1) (Negate m f) /\ lval (Negate m f) mod secp_p = (- lval f) mod secp_p.
Proof. exact C94_negate_l. Qed.
Print Assumptions C94_negate.

Theorem C94_normalize : forall m f, 0 <= m <= 32 -> mag m f -> length (Normalize f) = 10%nat /\ Forall (fun d => 0 <= d < 2 ^ 26) (Normalize f) /\ lval (Normalize f) = lval f mod secp_p.
Proof. exact C94_normalize_l. Qed.
Print Assumptions C94_normalize.

Theorem C94_inverse : forall f, mag 1 f -> mag 1 (Inverse f) /\ (lval f mod secp_p <> 0 -> (lval (Inverse f) * lval f) mod secp_p = 1) /\ (lval f mod secp_p = 0 -> lval (Inverse f) mod secp_p = 0).
Proof. exact C94_inverse_l. Qed.
Print Assumptions C94_inverse.

Theorem C94_affine : forall p, mag 1 (jX p) -> mag 1 (jY p) -> mag 1 (jZ p) ->
  let q := ToAffine p in
  (forall f, In f [jX q; jY q; jZ q] -> length f = 10%nat /\ Forall (fun d => 0 <= d < 2 ^ 26) f /\ 0 <= lval f < secp_p) /\ lval (jZ q) = 1 /\
  (lval (jZ p) mod secp_p <> 0 -> (lval (jX q) * lval (jZ p) ^ 2) mod secp_p = lval (jX p) mod secp_p /\ (lval (jY q) * lval (jZ p) ^ 3) mod secp_p = lval (jY p) mod secp_p) /\
  (lval (jZ p) mod secp_p = 0 -> lval (jX q) = 0 /\ lval (jY q) = 0).
Proof. exact C94_affine_l. Qed.
Print Assumptions C94_affine.

Theorem C94_bytes : (forall b, (length b <= 32)%nat -> length (SetByteSlice b) = 10%nat /\ Forall (fun d => 0 <= d < 2 ^ 26) (SetByteSlice b) /\ lval (SetByteSlice b) = be_Z b) /\
(forall b, (32 <= length b)%nat -> SetByteSlice b = SetByteSlice (firstn 32 b)) /\
(forall f, length f = 10%nat -> Forall (fun d => 0 <= d < 2 ^ 26) f -> lval f < 2 ^ 256 -> FieldBytes f = Z_be 32 (lval f)).
Proof. exact C94_bytes_l. Qed.
Print Assumptions C94_bytes.

Theorem C94_compare : forall f g, length f = 10%nat -> length g = 10%nat -> Forall (fun d => 0 <= d < 2 ^ 26) f -> Forall (fun d => 0 <= d < 2 ^ 26) g ->
  (Equals f g = true <-> lval f = lval g) /\ (IsZero f = true <-> lval f = 0) /\ (IsOne f = true <-> lval f = 1).
Proof. exact C94_compare_l. Qed.
Print Assumptions C94_compare.

Example C94_ex : mag 1 (SetInt 5) /\ lval (SetInt 5) mod secp_p <> 0 /\ mag 8 (MulInt 8 (SetInt 5)) /\ (exists f, mag 1 f /\ secp_p <= lval f < 2 ^ 256) /\
Forall (fun d => 0 <= d < 2 ^ 26) (SetInt 5).
Proof. exact C94_ex_l. Qed.

(** C95: a public key whose 32 bytes are p or more is taken for the point with the residue (SEC 1, 2.3.4 has it refused); *)

(** only when the tweak is that very point is the child not the sum. *)

Theorem C95_child : forall H T v d f n c xs y i, prims_ok H -> after_init T -> fields_ok v f n c -> pub_registered v -> 0 <= i < 2 ^ 31 -> length xs = 32%nat ->
  oncurve (PAff (toF (be_Z xs)) y) ->
  let K := PAff (toF (be_Z xs)) y in
  let key := (if Z.even (fv y) then x02 else x03) :: xs in
  let I := p_hmac512 H c (key ++ ser32 i) in
  let W := kG (IL I) in
  IL I mod secp_n <> 0 ->
  exists fp, NewChildKey H T (xkey v d f n c key) i = Ret (xkey v (bZ (Zb d + 1)) fp (ser32 i) (IR I)
    (if (secp_p <=? be_Z xs) && (fst (enc W) =? be_Z xs mod secp_p) then x02 :: repeat x00 32 else comp (cadd W K)), None).
Proof. exact C95_child_l. Qed.
Print Assumptions C95_child.

Theorem C95_accepted_refuted : exists xs y, length xs = 32%nat /\ secp_p <= be_Z xs /\ oncurve (PAff (toF (be_Z xs)) y) /\
  validateChildPublicKey ((if Z.even (fv y) then x02 else x03) :: xs) = Ret None.
Proof. exact C95_accepted_refuted_l. Qed.
Print Assumptions C95_accepted_refuted.

Example C95_ex : exists H T v f n c xs y i, prims_ok H /\ after_init T /\ fields_ok v f n c /\ pub_registered v /\ 0 <= i < 2 ^ 31 /\ length xs = 32%nat /\ secp_p <= be_Z xs /\
  oncurve (PAff (toF (be_Z xs)) y) /\ IL (p_hmac512 H c (((if Z.even (fv y) then x02 else x03) :: xs) ++ ser32 i)) mod secp_n <> 0.
Proof. exact C95_ex_l. Qed.
