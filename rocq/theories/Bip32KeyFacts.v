(** Bip32KeyFacts.v - layout of keys, private-key validation, public-key compression. *)
From Verif Require Import Base BaseFacts GoStr HexFacts Prims Secp Fp ECGroup SpecEC SecpFacts SpecBip32 Bip32Path Bip32Reg Bip32.

(** ** Slices and overwrites in the middle of a list *)
Lemma slice_mid {A} lo hi (a b c : list A) : length a = lo -> (lo + length b)%nat = hi -> slice lo hi (a ++ b ++ c) = b.
Proof.
  intros <- <-. unfold slice. rewrite skipn_app, skipn_all, Nat.sub_diag. cbn [app skipn].
  replace (length a + length b - length a)%nat with (length b) by lia.
  rewrite firstn_app, Nat.sub_diag, firstn_all. apply app_nil_r.
Qed.
Lemma overwrite_mid at_ (a b s c : bytes) : length a = at_ -> length s = length b -> overwrite at_ s (a ++ b ++ c) = a ++ s ++ c.
Proof.
  intros <- Hs. unfold overwrite. rewrite firstn_app, Nat.sub_diag, firstn_all. cbn [firstn]. rewrite app_nil_r.
  f_equal. f_equal. rewrite app_assoc, Hs, <- app_length. rewrite skipn_app, skipn_all, Nat.sub_diag. reflexivity.
Qed.
Lemma copy_mid lo hi (a b s c : bytes) : length a = lo -> (lo + length b)%nat = hi -> length s = length b ->
  copy_at lo hi s (a ++ b ++ c) = a ++ s ++ c.
Proof.
  intros <- <- Hs. unfold copy_at. replace (length a + length b - length a)%nat with (length s) by lia.
  rewrite firstn_all. apply overwrite_mid; [reflexivity|exact Hs].
Qed.
Lemma skipn_exact {A} n (a b : list A) : length a = n -> skipn n (a ++ b) = b.
Proof. intros <-. rewrite skipn_app, skipn_all, Nat.sub_diag. reflexivity. Qed.
Lemma firstn_exact {A} n (a b : list A) : length a = n -> firstn n (a ++ b) = a.
Proof. intros <-. rewrite firstn_app, Nat.sub_diag, firstn_all. apply app_nil_r. Qed.
Lemma arr_exact n l : length l = n -> arr n l = Ret l.
Proof. intros <-. unfold arr. rewrite Nat.leb_refl, firstn_all. reflexivity. Qed.
Lemma arr_firstn n l : (n <= length l)%nat -> arr n l = Ret (firstn n l).
Proof. intros H. unfold arr. apply Nat.leb_le in H. rewrite H. reflexivity. Qed.

(** ** Fields of a key *)
Section Layout.
Variables (v : bytes) (d : byte) (f n c data : bytes).
Hypothesis HF : fields_ok v f n c.
Let lv : length v = 4%nat. Proof. exact (proj1 HF). Qed.
Let lf : length f = 4%nat. Proof. exact (proj1 (proj2 HF)). Qed.
Let ln : length n = 4%nat. Proof. exact (proj1 (proj2 (proj2 HF))). Qed.
Let lc : length c = 32%nat. Proof. exact (proj2 (proj2 (proj2 HF))). Qed.
Notation K := (xkey v d f n c data).

Lemma xkey_length : length K = (45 + length data)%nat.
Proof. unfold xkey. rewrite !app_length, lv, lf, ln, lc. reflexivity. Qed.
Lemma get_ver : slice 0 4 K = v.
Proof. unfold xkey. apply (slice_mid 0 4 [] v); [reflexivity|rewrite lv; reflexivity]. Qed.
Lemma get_fp : slice 5 9 K = f.
Proof.
  unfold xkey. replace (v ++ [d] ++ f ++ n ++ c ++ data) with ((v ++ [d]) ++ f ++ n ++ c ++ data) by (rewrite <- !app_assoc; reflexivity).
  apply slice_mid; rewrite ?app_length, ?lv, ?lf; reflexivity.
Qed.
Lemma get_num : slice 9 13 K = n.
Proof.
  unfold xkey. replace (v ++ [d] ++ f ++ n ++ c ++ data) with ((v ++ [d] ++ f) ++ n ++ c ++ data) by (rewrite <- !app_assoc; reflexivity).
  apply slice_mid; rewrite ?app_length, ?lv, ?lf, ?ln; reflexivity.
Qed.
Lemma get_cc : slice 13 45 K = c.
Proof.
  unfold xkey. replace (v ++ [d] ++ f ++ n ++ c ++ data) with ((v ++ [d] ++ f ++ n) ++ c ++ data) by (rewrite <- !app_assoc; reflexivity).
  apply slice_mid; rewrite ?app_length, ?lv, ?lf, ?ln, ?lc; reflexivity.
Qed.
Lemma pre45 : length (v ++ [d] ++ f ++ n ++ c) = 45%nat.
Proof. rewrite !app_length, lv, lf, ln, lc. reflexivity. Qed.
Lemma K_pre : K = (v ++ [d] ++ f ++ n ++ c) ++ data.
Proof. unfold xkey. rewrite <- !app_assoc. reflexivity. Qed.
Lemma get_data : skipn 45 K = data.
Proof. rewrite K_pre. apply skipn_exact, pre45. Qed.
Lemma get_data_slice : length data = 33%nat -> slice 45 78 K = data.
Proof. intros L. unfold slice. rewrite get_data. change (78 - 45)%nat with 33%nat. rewrite <- L. apply firstn_all. Qed.
Lemma get_dep : key_at 4 K = d.
Proof. unfold key_at, xkey. rewrite app_nth2; rewrite lv; [reflexivity|lia]. Qed.
Lemma get_dep_slice : slice 4 5 K = [d].
Proof. unfold xkey. apply slice_mid; rewrite ?lv; reflexivity. Qed.
Lemma get_45 : key_at 45 K = nth 0 data x00.
Proof. unfold key_at. rewrite K_pre, app_nth2; rewrite pre45; [reflexivity|lia]. Qed.
Lemma get_46 : skipn 46 K = skipn 1 data.
Proof.
  transitivity (skipn 1 (skipn 45 K)); [|rewrite get_data; reflexivity]. generalize 45%nat, K. clear. intros m l. revert l.
  induction m as [|m IH]; intros [|x l]; try reflexivity. apply (IH l).
Qed.
Lemma get_pvt : length data = 33%nat -> slice 46 78 K = skipn 1 data.
Proof. intros L. unfold slice. rewrite get_46. change (78 - 46)%nat with 32%nat. apply firstn_all2. rewrite skipn_length, L. lia. Qed.
Lemma set_ver v' : length v' = 4%nat -> SetVersion v' K = xkey v' d f n c data.
Proof. intros L. unfold SetVersion, xkey. apply (copy_mid 0 4 [] v); [reflexivity|rewrite lv; reflexivity|rewrite lv; exact L]. Qed.
Lemma set_dep d' : setDepth d' K = xkey v d' f n c data.
Proof. unfold setDepth, xkey. apply (overwrite_mid 4 v [d] [d']); [exact lv|reflexivity]. Qed.
Lemma set_fp f' : length f' = 4%nat -> copy_at 5 9 f' K = xkey v d f' n c data.
Proof.
  intros L. unfold xkey. replace (v ++ [d] ++ f ++ n ++ c ++ data) with ((v ++ [d]) ++ f ++ n ++ c ++ data) by (rewrite <- !app_assoc; reflexivity).
  rewrite copy_mid; rewrite ?app_length, ?lv, ?lf; try reflexivity; [rewrite <- !app_assoc; reflexivity|exact L].
Qed.
Lemma set_num n' : length n' = 4%nat -> setChildNumber n' K = xkey v d f n' c data.
Proof.
  intros L. unfold setChildNumber, xkey. replace (v ++ [d] ++ f ++ n ++ c ++ data) with ((v ++ [d] ++ f) ++ n ++ c ++ data) by (rewrite <- !app_assoc; reflexivity).
  rewrite copy_mid; rewrite ?app_length, ?lv, ?lf, ?ln; try reflexivity; [rewrite <- !app_assoc; reflexivity|exact L].
Qed.
Lemma set_cc c' : length c' = 32%nat -> setChainCode c' K = xkey v d f n c' data.
Proof.
  intros L. unfold setChainCode, xkey. replace (v ++ [d] ++ f ++ n ++ c ++ data) with ((v ++ [d] ++ f ++ n) ++ c ++ data) by (rewrite <- !app_assoc; reflexivity).
  rewrite copy_mid; rewrite ?app_length, ?lv, ?lf, ?ln, ?lc; try reflexivity; [rewrite <- !app_assoc; reflexivity|exact L].
Qed.
Lemma set_data data' : length data = 33%nat -> length data' = 33%nat -> copy_at 45 78 data' K = xkey v d f n c data'.
Proof.
  intros L L'. rewrite K_pre. rewrite <- (app_nil_r data) at 1. rewrite copy_mid; [|exact pre45|rewrite L; reflexivity|congruence].
  rewrite app_nil_r. unfold xkey. rewrite <- !app_assoc. reflexivity.
Qed.
End Layout.
Lemma set_pvt v d f n c k0 r r' : fields_ok v f n c -> length r = 32%nat -> length r' = 32%nat ->
  setPvtKeyBytes r' (xkey v d f n c (k0 :: r)) = xkey v d f n c (k0 :: r').
Proof.
  intros HF L L'. pose proof (pre45 v d f n c HF) as P. unfold setPvtKeyBytes.
  assert (E : forall s, xkey v d f n c (k0 :: s) = ((v ++ [d] ++ f ++ n ++ c) ++ [k0]) ++ s ++ []).
  { intros s. unfold xkey. rewrite app_nil_r, <- !app_assoc. reflexivity. }
  rewrite !E. apply copy_mid; [rewrite app_length, P; reflexivity|rewrite L; reflexivity|congruence].
Qed.

(** Every 78-byte key has these fields. *)
Lemma key_split k : wf_key k -> exists v d f n c data, k = xkey v d f n c data /\ fields_ok v f n c /\ length data = 33%nat.
Proof.
  intros L. unfold wf_key in L.
  exists (firstn 4 k), (nth 4 k x00), (slice 5 9 k), (slice 9 13 k), (slice 13 45 k), (skipn 45 k).
  split; [|split].
  - do 45 (destruct k as [|? k]; [discriminate|]). reflexivity.
  - unfold fields_ok. rewrite !slice_length by lia. rewrite firstn_length. repeat split; try reflexivity. lia.
  - rewrite skipn_length, L. reflexivity.
Qed.
Lemma data_split (data : bytes) : length data = 33%nat -> exists k0 r, data = k0 :: r /\ length r = 32%nat.
Proof. destruct data as [|k0 r]; [discriminate|]. intros L. exists k0, r. split; [reflexivity|]. cbn in L. lia. Qed.
Lemma zero_key_x : zero_key = xkey (repeat x00 4) x00 (repeat x00 4) (repeat x00 4) (repeat x00 32) (repeat x00 33).
Proof. reflexivity. Qed.
Lemma IsPrivate_x v d f n c data : fields_ok v f n c -> IsPrivate (xkey v d f n c data) = Byte.eqb (nth 0 data x00) x00.
Proof. intros HF. unfold IsPrivate. rewrite get_45 by exact HF. reflexivity. Qed.
Lemma xkey_inj v d f n c data v' d' f' n' c' data' : fields_ok v f n c -> fields_ok v' f' n' c' ->
  xkey v d f n c data = xkey v' d' f' n' c' data' -> v = v' /\ d = d' /\ f = f' /\ n = n' /\ c = c' /\ data = data'.
Proof.
  intros F F' E. repeat split.
  - rewrite <- (get_ver v d f n c data F), E. apply get_ver. exact F'.
  - rewrite <- (get_dep v d f n c data F), E. apply get_dep. exact F'.
  - rewrite <- (get_fp v d f n c data F), E. apply get_fp. exact F'.
  - rewrite <- (get_num v d f n c data F), E. apply get_num. exact F'.
  - rewrite <- (get_cc v d f n c data F), E. apply get_cc. exact F'.
  - rewrite <- (get_data v d f n c data F), E. apply get_data. exact F'.
Qed.

(** ** ValidatePrivateKey *)
Lemma bytes_geb_spec a : forall b, length a = length b -> bytes_geb a b = (be_Z b <=? be_Z a).
Proof.
  induction a as [|x a IH]; intros [|y b] L; try discriminate; [reflexivity|]. cbn [bytes_geb].
  injection L as L. rewrite (IH b L), !be_Z_cons, L. pose proof (be_Z_range a) as Ra. pose proof (be_Z_range b) as Rb.
  rewrite L in Ra. set (P := p256 (length b)) in *.
  destruct (Z.eqb_spec (Zb x) (Zb y)) as [->|N].
  - destruct (Z.leb_spec (be_Z b) (be_Z a)), (Z.leb_spec (Zb y * P + be_Z b) (Zb y * P + be_Z a)); lia.
  - destruct (Z.ltb_spec (Zb y) (Zb x)), (Z.leb_spec (Zb y * P + be_Z b) (Zb x * P + be_Z a)); nia.
Qed.
Lemma p256_32 : p256 32 = 2 ^ 256. Proof. reflexivity. Qed.
Lemma n_bytes : Z_bytes secp_n = Z_be 32 secp_n. Proof. vm_compute. reflexivity. Qed.
Lemma n_lt : secp_n < p256 32. Proof. reflexivity. Qed.
Lemma p_lt : secp_p < p256 32. Proof. reflexivity. Qed.
Lemma be_zero (l : bytes) : be_Z l = 0 <-> l = repeat x00 (length l).
Proof.
  split.
  - intros E. apply be_Z_inj; [rewrite repeat_length; reflexivity|]. rewrite E. rewrite <- (app_nil_r (repeat _ _)), be_Z_zeros. reflexivity.
  - intros ->. rewrite <- (app_nil_r (repeat _ _)), be_Z_zeros. reflexivity.
Qed.
Lemma ValidatePrivateKey_spec key : length key = 32%nat ->
  ValidatePrivateKey key = if (be_Z key =? 0) || (secp_n <=? be_Z key) then Some ErrInvalidPrivateKey else None.
Proof.
  intros L. unfold ValidatePrivateKey.
  assert (E1 : bytes_eqb (HexEncode key) (repeat x30 64) = (be_Z key =? 0)).
  { change (repeat x30 64) with (HexEncode (repeat x00 32)). destruct (Z.eqb_spec (be_Z key) 0) as [E|E].
    - apply be_zero in E. rewrite L in E. rewrite E. apply bytes_eqb_refl.
    - apply bytes_eqb_neq. intros C. apply HexEncode_inj in C. apply E. apply be_zero. rewrite L. exact C. }
  assert (E2 : bytes_geb key (Z_bytes secp_n) = (secp_n <=? be_Z key)).
  { rewrite n_bytes, bytes_geb_spec by (rewrite L, Z_be_length; reflexivity). rewrite be_Z_be, Z.mod_small; [reflexivity|].
    split; [discriminate|exact n_lt]. }
  rewrite E1, E2. reflexivity.
Qed.

(** ** addPrivateKeys *)
Lemma pad32 z : 0 <= z < p256 32 -> repeat x00 (32 - length (Z_bytes z)) ++ Z_bytes z = Z_be 32 z.
Proof. intros H. rewrite Z_bytes_length. symmetry; apply Z_bytes_pad. exact H. Qed.
Lemma addPrivateKeys_spec a b : addPrivateKeys a b = Z_be 32 ((be_Z a + be_Z b) mod secp_n).
Proof.
  unfold addPrivateKeys. cbv zeta. set (z := (be_Z a + be_Z b) mod secp_n).
  assert (Hz : 0 <= z < p256 32).
  { pose proof (Z.mod_pos_bound (be_Z a + be_Z b) secp_n secp_n_pos). pose proof n_lt. unfold z. lia. }
  rewrite <- (pad32 z Hz). destruct (Nat.ltb_spec (length (Z_bytes z)) 32) as [|H]; [reflexivity|].
  replace (32 - length (Z_bytes z))%nat with O by lia. reflexivity.
Qed.

(** ** Compression *)
(** What the library writes for a point: serP, and 02 00..00 for infinity. *)
(** In proofs; for bip32/utils.go:55-104. *)
Definition comp (P : point) : bytes := match P with Inf _ => x02 :: repeat x00 32 | Aff _ _ _ => serPb P end.
Lemma comp_aff P : P <> PInf -> comp P = serPb P.
Proof. destruct P; [congruence|reflexivity]. Qed.
Lemma parity_byte y : bZ (2 + y mod 2) = if Z.even y then x02 else x03.
Proof. rewrite Zmod_even. destruct (Z.even y); reflexivity. Qed.
Lemma fv_p256 a : 0 <= fv a < p256 32.
Proof. pose proof (fv_range a). pose proof p_lt. lia. Qed.
Lemma compress_enc P : compressPublicKey (enc P) = comp P.
Proof.
  destruct P as [|x y]; [reflexivity|]. unfold compressPublicKey, enc, comp, serPb, serP.
  rewrite pad32 by apply fv_p256. rewrite parity_byte. reflexivity.
Qed.
Lemma comp_length P : length (comp P) = 33%nat.
Proof. destruct P as [|x y]; [reflexivity|]. cbn [comp serPb serP length]. rewrite Z_be_length. reflexivity. Qed.
Lemma compress_length x y : (33 <= length (compressPublicKey (x, y)))%nat.
Proof. unfold compressPublicKey. cbn [length]. rewrite app_length, repeat_length. lia. Qed.
Lemma publicKey_spec key : publicKeyForPrivateKey key = comp (kG (be_Z key mod secp_n)).
Proof. unfold publicKeyForPrivateKey. rewrite ScalarBaseMult_spec. apply compress_enc. Qed.
Lemma be_kG key : kG (be_Z key mod secp_n) = kG (be_Z key).
Proof. apply kG_mod_n. apply be_Z_range. Qed.
Lemma comp_head P : nth 0 (comp P) x00 <> x00.
Proof. destruct P as [|x y]; [discriminate|]. cbn [comp serPb serP nth]. destruct (Z.even (fv y)); discriminate. Qed.

Lemma p_odd : Z.even secp_p = false. Proof. reflexivity. Qed.
Lemma fv_opp y : y <> F0 -> fv (Fopp y) = secp_p - fv y.
Proof.
  intros Hy. unfold Fopp. rewrite fv_toF.
  assert (fv y <> 0) by (intros E; apply Hy; apply Fp_eq; exact E). pose proof (fv_range y).
  replace (- fv y) with ((secp_p - fv y) + (-1) * secp_p) by ring. rewrite Z_mod_plus_full. apply Z.mod_small. lia.
Qed.
Lemma curve_sq x y : oncurve (PAff x y) -> (fv x ^ 3 + secp_b) mod secp_p = fv (Fmul y y).
Proof.
  intros H. unfold oncurve, on in H. rewrite H. unfold Fadd, Fmul, Fb. rewrite !fv_toF.
  rewrite <- Zplus_mod. rewrite (Z.add_mod _ secp_b), (Z.add_mod (_ mod _ * _) secp_b) by apply secp_p_nz. f_equal. f_equal.
  rewrite Zmult_mod_idemp_l. f_equal. ring.
Qed.
(** In proofs; for bip32/utils.go:55-104. *)
Definition sel_y (k0 : byte) (Y : Z) : Z := if (Zb k0 - 2) mod 2 ^ 64 =? Y mod 2 then Y else secp_p - Y.
Lemma Expand_cons k0 xs : ExpandPublicKey (k0 :: xs) =
  Ret (be_Z xs, sel_y k0 (match ModSqrt (be_Z xs ^ 3 + secp_b) with Some y => y | None => 0 end)).
Proof. reflexivity. Qed.
Lemma sel_y_spec y z : y <> F0 -> 0 <= z < secp_p -> toF z = y \/ toF z = Fopp y ->
  sel_y (if Z.even (fv y) then x02 else x03) z = fv y.
Proof.
  intros Hy Hz HE. unfold sel_y.
  assert (S : (Zb (if Z.even (fv y) then x02 else x03) - 2) mod 2 ^ 64 = fv y mod 2).
  { rewrite (Zmod_even (fv y)). destruct (Z.even (fv y)); reflexivity. }
  rewrite S. assert (Ez : z = fv (toF z)) by (rewrite fv_toF; symmetry; apply Z.mod_small; exact Hz).
  destruct HE as [E|E]; rewrite E in Ez.
  - rewrite Ez, Z.eqb_refl. reflexivity.
  - rewrite fv_opp in Ez by exact Hy.
    destruct (Z.eqb_spec (fv y mod 2) (z mod 2)) as [C|C]; [|lia].
    exfalso. rewrite !Zmod_even, Ez, Z.even_sub, p_odd in C. destruct (Z.even (fv y)); discriminate.
Qed.
Theorem Expand_ser P : oncurve P -> P <> PInf -> ExpandPublicKey (serPb P) = Ret (enc P).
Proof.
  intros HP HN. destruct P as [|x y]; [congruence|]. cbn [serPb serP enc]. rewrite Expand_cons.
  rewrite be_Z_be, (Z.mod_small (fv x)) by apply fv_p256. f_equal. f_equal.
  rewrite <- ModSqrt_mod, (curve_sq x y HP). destruct (ModSqrt_square y) as (z & -> & Hz & Ez).
  apply sel_y_spec; [exact (y_nonzero x y HP)|exact Hz|exact Ez].
Qed.

(** Expansion of a key whose abscissa is not that of a curve point. *)
Lemma Expand_off k0 xs : (forall y, ~ oncurve (PAff (toF (be_Z xs)) y)) ->
  ExpandPublicKey (k0 :: xs) = Ret (be_Z xs, if Byte.eqb k0 x02 then 0 else secp_p).
Proof.
  intros HN. rewrite Expand_cons. f_equal. f_equal.
  destruct (ModSqrt (be_Z xs ^ 3 + secp_b)) as [z|] eqn:E.
  - exfalso. apply ModSqrt_sound in E as [_ E]. apply (HN (toF z)). unfold oncurve, on. rewrite E.
    unfold Fb. rewrite <- !toF_mul, <- toF_add. f_equal. ring.
  - unfold sel_y. change (0 mod 2) with 0.
    destruct (Byte.eqb k0 x02) eqn:Eb; [apply byte_eqb_spec in Eb; subst; reflexivity|].
    destruct (Z.eqb_spec ((Zb k0 - 2) mod 2 ^ 64) 0) as [C|C]; [|lia]. exfalso.
    apply byte_eqb_neq in Eb. apply Eb. apply Zb_inj. pose proof (Zb_range k0). change (Zb x02) with 2.
    destruct (Z_le_gt_dec 2 (Zb k0)); [rewrite Z.mod_small in C; lia|].
    replace (Zb k0 - 2) with (Zb k0 - 2 + 2 ^ 64 + (-1) * 2 ^ 64) in C by ring. rewrite Z_mod_plus_full, Z.mod_small in C; lia.
Qed.

(** No curve point has abscissa 0: 7 is not a square modulo p. *)
Lemma seven_nonsquare : ModSqrt 7 = None.
Proof. vm_compute. reflexivity. Qed.
Lemma x_nonzero x y : oncurve (PAff x y) -> fv x <> 0.
Proof.
  intros H E. pose proof (curve_sq x y H) as Q. rewrite E in Q. change ((0 ^ 3 + secp_b) mod secp_p) with 7 in Q.
  destruct (ModSqrt_square y) as (z & S & _). rewrite <- Q, seven_nonsquare in S. discriminate.
Qed.
