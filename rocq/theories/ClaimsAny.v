(** ClaimsAny.v - the property statements of PropsAny.v with their proofs. *)
From Verif Require Import Base BaseFacts GoStr GoStrFacts HexFacts Prims Hash HashFacts Secp SecpPrime Fp ECGroup SpecEC SecpGroup SecpOrder SecpFacts Base58 Base58Facts SpecBip32 SpecPath Bip32Path Bip32Reg Bip32 Bip32RegFacts Bip32KeyFacts Bip32Facts Bip32Facts2 Claims32 GoField GoFieldFacts GoCurve GoCurveFacts ClaimsCurve QuadRec GoBig GoBigFacts ClaimsBig Bip39 SpecBip39 Bip39Facts Bip39Facts2 WordLists WlSpanish AllLists Bip39ListFacts.
From Coq Require Import ZifyBool ZifyNat ZifyN.

Lemma C98_panics_l : forall H l e, prims_ok H -> entropy_size_ok e ->
  (NewMnemonic H (SetWordList l) e = Panic <-> exists i, In i (bip39_indices H e) /\ Z.of_nat (length l) <= i) /\
  (NewMnemonic H (SetWordList l) e <> Panic -> NewMnemonic H (SetWordList l) e = Ret (Join (B " ") (bip39_words H l e), None)).
Proof.
intros H l e HP He. destruct (NewMnemonic_any H (SetWordList l) e HP He) as [A Bd]. change (wordList (SetWordList l)) with l in *.
assert (D : Forall (fun i => i < Z.of_nat (length l)) (bip39_indices H e) \/ Exists (fun i => Z.of_nat (length l) <= i) (bip39_indices H e)).
{ clear A Bd. induction (bip39_indices H e) as [|i is IH]; [left; constructor|]. destruct (Z_le_gt_dec (Z.of_nat (length l)) i); [right; left; assumption|].
  destruct IH as [IH|IH]; [left; constructor; [lia|exact IH]|right; right; exact IH]. }
split.
- rewrite <- Exists_exists. split; [|exact Bd]. intros E. destruct D as [D|D]; [|exact D]. rewrite (A D) in E. discriminate.
- intros N. destruct D as [D|D]; [exact (A D)|]. contradiction (N (Bd D)).
Qed.

Lemma C98_short_refuted_l : forall H l n, prims_ok H -> (length l < 2048)%nat -> In n [16; 20; 24; 28; 32]%nat -> NewMnemonic H (SetWordList l) (repeat xff n) = Panic.
Proof.
intros H l n HP L Hn. assert (He : entropy_size_ok (repeat xff n)) by (unfold entropy_size_ok; rewrite repeat_length; exact Hn).
apply (NewMnemonic_any H (SetWordList l) _ HP He). change (wordList (SetWordList l)) with l. apply Exists_exists. exists 2047. split; [|lia].
unfold bip39_indices, bip39_count, bip39_bits. rewrite repeat_length. repeat destruct Hn as [<-|Hn]; [..|contradiction]; left; reflexivity.
Qed.

Lemma C98_repeats_l : forall H l e m, prims_ok H -> entropy_size_ok e -> length l = 2048%nat -> text_words l -> NewMnemonic H (SetWordList l) e = Ret (m, None) ->
  (EntropyFromMnemonic H (SetWordList l) m = (e, None) <->
   forall i j, In i (bip39_indices H e) -> nth_error l j = nth_error l (Z.to_nat i) -> (j <= Z.to_nat i)%nat).
Proof.
intros H l e m HP He L T E. rewrite NewMnemonic_ok in E by (try assumption; change (wordList (SetWordList l)) with l; lia). injection E as <-.
change (wordList (SetWordList l)) with l. rewrite (repeats_iff H l e HP He L T), Forall_forall. unfold last_place. split; intros K i; [intros j Hi; apply K; exact Hi|intros Hi j; apply K; exact Hi].
Qed.

Lemma not_nodup (l : list bytes) : ~ NoDup l -> exists a w b c, l = a ++ w :: b ++ w :: c.
Proof.
  induction l as [|w l IH]; intros N; [contradiction (N (NoDup_nil _))|]. destruct (in_dec (list_eq_dec Byte.byte_eq_dec) w l) as [I|I].
  - apply in_split in I as (b & c & ->). exists [], w, b, c. reflexivity.
  - destruct IH as (a & u & b & c & ->); [intros C; apply N; constructor; assumption|]. exists (w :: a), u, b, c. reflexivity.
Qed.

Lemma C98_repeats_refuted_l : forall H l, prims_ok H -> length l = 2048%nat -> text_words l -> ~ NoDup l ->
  exists e m, entropy_size_ok e /\ NewMnemonic H (SetWordList l) e = Ret (m, None) /\ EntropyFromMnemonic H (SetWordList l) m <> (e, None).
Proof.
intros H l HP L T ND.
assert (X : exists i j, (i < j < 2048)%nat /\ nth_error l i = nth_error l j).
{ destruct (not_nodup l ND) as (a & w & b & c & ->). exists (length a), (length a + S (length b))%nat. rewrite app_length in L. cbn [length] in L. rewrite app_length in L. cbn [length] in L.
  split; [lia|]. rewrite nth_error_app2, Nat.sub_diag by lia. rewrite nth_error_app2 by lia. replace (length a + S (length b) - length a)%nat with (S (length b)) by lia.
  cbn [nth_error]. rewrite nth_error_app2, Nat.sub_diag by lia. reflexivity. }
destruct X as (i & j & R & N).
destruct (first_index H (Z.of_nat i) (repeat x00 14) HP ltac:(lia) (repeat_length _ _)) as (e & js & He & Le & Ei).
exists e, (Join (B " ") (bip39_words H l e)). split; [exact He|].
assert (EM : NewMnemonic H (SetWordList l) e = Ret (Join (B " ") (bip39_words H l e), None)) by (apply (NewMnemonic_ok H (SetWordList l)); [exact HP|change (wordList (SetWordList l)) with l; lia|exact He]).
split; [exact EM|]. intros C. apply (repeats_iff H l e HP He L T) in C. rewrite Ei in C. inversion C as [|? ? C1 _]; subst. unfold last_place in C1. rewrite Nat2Z.id in C1.
specialize (C1 j (eq_sym N)). lia.
Qed.

Lemma C98_first_words_l : forall H l q e, prims_ok H -> length l = 2048%nat -> NewMnemonic H (SetWordList (l ++ q)) e = NewMnemonic H (SetWordList l) e.
Proof.
intros H l q e HP L. destruct (in_dec Nat.eq_dec (length e) [16; 20; 24; 28; 32]%nat) as [He|He]; [|rewrite !NewMnemonic_bad by exact He; reflexivity].
rewrite !NewMnemonic_ok; try exact HP; try exact He; try (change (wordList (SetWordList l)) with l; lia).
2:{ change (wordList (SetWordList (l ++ q))) with (l ++ q). rewrite app_length. lia. }
change (wordList (SetWordList l)) with l. change (wordList (SetWordList (l ++ q))) with (l ++ q). do 3 f_equal. unfold bip39_words. apply map_ext_in. intros i Hi.
pose proof (indices_in H e i HP He Hi). apply app_nth1. lia.
Qed.

Lemma C98_long_names_refuted_l : forall H l e a i t b j, prims_ok H -> entropy_size_ok e -> NoDup l -> text_words l -> (2048 <= length l)%nat ->
  bip39_indices H e = a ++ i :: t :: b -> Z.odd i = true -> j = i \/ j = i - 1 -> 2048 + t < Z.of_nat (length l) ->
  EntropyFromMnemonic H (SetWordList l) (Join (B " ") (map (fun i => nth (Z.to_nat i) l []) (a ++ j :: 2048 + t :: b))) = (e, None).
Proof.
exact long_second_name.
Qed.

Lemma C98_long_entropy_refuted_l : forall H l, prims_ok H -> NoDup l -> text_words l -> (2048 < length l)%nat ->
  exists m e, EntropyFromMnemonic H (SetWordList l) m = (e, None) /\ length e = 17%nat.
Proof.
exact long_entropy.
Qed.

Lemma NoDup_rev_inv (A : Type) (l : list A) : NoDup (rev l) -> NoDup l.
Proof. intros N. rewrite <- (rev_involutive l). apply NoDup_rev. exact N. Qed.

Lemma C98_ex_l : prims_ok RealPrims /\ text_words spanish /\ length spanish = 2048%nat /\
(exists l, NoDup l /\ text_words l /\ (2048 < length l)%nat /\ firstn 2048 l = spanish) /\
(exists l, ~ NoDup l /\ text_words l /\ length l = 2048%nat) /\
(exists e a i t b, entropy_size_ok e /\ bip39_indices RealPrims e = a ++ i :: t :: b /\ Z.odd i = true /\ t = 0).
Proof.
destruct spanish_list as [[GL GN] GT]. split; [exact real_prims_ok|]. split; [exact GT|]. split; [exact GL|]. split.
{ exists (spanish ++ [abaco_nfc]). split.
  - apply (NoDup_rev_inv bytes). rewrite rev_app_distr. cbn [rev app]. constructor; [|apply NoDup_rev; exact GN]. intros C. apply in_rev in C. exact (proj2 abaco C).
  - split; [apply Forall_app; split; [exact GT|]; constructor; [vm_compute; reflexivity|constructor]|].
    split; [rewrite app_length, GL; cbn [length]; lia|]. rewrite firstn_app, GL, Nat.sub_diag, firstn_O, app_nil_r. apply firstn_all2. rewrite GL. lia. }
split.
{ exists (repeat (B "a") 2048). split; [|split; [apply Forall_forall; intros w Hw; apply repeat_spec in Hw; subst w; vm_compute; reflexivity|apply repeat_length]].
  intros N. change (repeat (B "a") 2048) with (B "a" :: B "a" :: repeat (B "a") 2046) in N. inversion N as [|? ? K _]; subst. apply K. left. reflexivity. }
exists (x00 :: x20 :: repeat x00 14), [], 1, 0, (tl (tl (bip39_indices RealPrims (x00 :: x20 :: repeat x00 14)))). split; [left; reflexivity|]. split; [|split; reflexivity]. unfold bip39_indices, bip39_bits, bip39_count.
generalize (p_sha256 RealPrims (x00 :: x20 :: repeat x00 14)). intros h. reflexivity.
Qed.

Lemma C99_private_l : forall H T v d f n c s i, prims_ok H -> after_init T -> fields_ok v f n c -> pvt_registered v -> 0 <= s < 2 ^ 256 -> 0 <= i < 2 ^ 32 ->
  let pub := if s mod secp_n =? 0 then x02 :: repeat x00 32 else serPb (kG (s mod secp_n)) in
  let I := p_hmac512 H c ((if 2 ^ 31 <=? i then x00 :: ser256 s else pub) ++ ser32 i) in
  let child := (IL I + s) mod secp_n in
  NewChildKey H T (xprv v d f n c s) i =
    Ret (xprv v (bZ (Zb d + 1)) (firstn 4 (hash160 H pub)) (ser32 i) (IR I) child, if child =? 0 then Some ErrInvalidPrivateKey else None).
Proof.
intros H T v d f n c s i HP HT HF HV Hs Hi pub I child. rewrite (NewChildKey_priv H v d f n c s HP HF Hs T i HT). cbv zeta.
destruct (pvt_lookup T v HT HV) as (h & ->).
assert (EP : comp (kG s) = pub).
{ unfold pub. destruct (Z.eqb_spec (s mod secp_n) 0) as [Z|Z]; [rewrite (proj2 (kG_inf_iff s ltac:(lia)) Z); reflexivity|].
  rewrite kG_mod_n by lia. apply comp_aff. intros C. apply kG_inf_iff in C; [contradiction|lia]. }
rewrite EP. assert (EI : I_any H s c i = I) by (unfold I_any, I; rewrite EP; reflexivity). rewrite EI. reflexivity.
Qed.

Lemma C99_same_children_l : forall H T v d f n c s s' i, prims_ok H -> after_init T -> fields_ok v f n c -> 0 <= s < 2 ^ 256 -> 0 <= s' < 2 ^ 256 -> s mod secp_n = s' mod secp_n -> 0 <= i < 2 ^ 31 ->
  NewChildKey H T (xprv v d f n c s) i = NewChildKey H T (xprv v d f n c s') i.
Proof.
intros H T v d f n c s s' i HP HT HF Hs Hs' E Hi. rewrite (NewChildKey_priv H v d f n c s HP HF Hs T i HT), (NewChildKey_priv H v d f n c s' HP HF Hs' T i HT). cbv zeta.
assert (K : kG s = kG s') by (rewrite <- (kG_mod_n s), <- (kG_mod_n s'), E by lia; reflexivity).
unfold I_any. replace (HARD <=? i) with false by (symmetry; apply Z.leb_gt; unfold HARD; lia). rewrite K.
set (I := p_hmac512 H c (comp (kG s') ++ ser32 i)). clearbody I. replace ((IL I + s) mod secp_n) with ((IL I + s') mod secp_n); [reflexivity|].
rewrite (Zplus_mod (IL I) s'), (Zplus_mod (IL I) s), E. reflexivity.
Qed.

Lemma C99_invalid_private_refuted_l : forall H T v d f n c s i, prims_ok H -> after_init T -> fields_ok v f n c -> pvt_registered v -> s = 0 \/ secp_n <= s < 2 ^ 256 -> 0 <= i < 2 ^ 32 ->
  ~ valid_xkey (xprv v d f n c s) /\
  ((IL (p_hmac512 H c ((if 2 ^ 31 <=? i then x00 :: ser256 s else if s mod secp_n =? 0 then x02 :: repeat x00 32 else serPb (kG (s mod secp_n))) ++ ser32 i)) + s) mod secp_n <> 0 ->
   exists k', NewChildKey H T (xprv v d f n c s) i = Ret (k', None)).
Proof.
intros H T v d f n c s i HP HT HF HV Hs Hi. assert (R : 0 <= s < 2 ^ 256) by (pose proof secp_n_pos; lia). split.
- intros (v' & d' & f' & n' & c' & HF' & _ & [[_ (s' & Hs' & E)]|[_ (P & _ & NP & E)]]).
  + apply xprv_inj in E; [|exact HF|exact HF'|exact R|exact (scalar_256 s' Hs')]. destruct E as (_ & _ & _ & _ & _ & ->). unfold scalar_ok in Hs'. lia.
  + unfold xprv, xpub in E. apply xkey_inj in E; [|exact HF|exact HF']. destruct E as (_ & _ & _ & _ & _ & E). pose proof (serPb_head P NP) as C. rewrite <- E in C. apply C. reflexivity.
- intros N. rewrite (C99_private_l H T v d f n c s i HP HT HF HV R Hi). cbv zeta. destruct (Z.eqb_spec ((IL (p_hmac512 H c ((if 2 ^ 31 <=? i then x00 :: ser256 s else if s mod secp_n =? 0 then x02 :: repeat x00 32 else serPb (kG (s mod secp_n))) ++ ser32 i)) + s) mod secp_n) 0) as [Z|Z]; [contradiction|].
  eexists. reflexivity.
Qed.

Lemma C99_public_l : forall H T v d f n c k0 xs i, prims_ok H -> after_init T -> fields_ok v f n c -> pub_registered v -> k0 <> x00 -> length xs = 32%nat -> 0 <= i < 2 ^ 31 ->
  let I := p_hmac512 H c ((k0 :: xs) ++ ser32 i) in
  exists r e, NewChildKey H T (xkey v d f n c (k0 :: xs)) i = Ret (r, e) /\
    (IL I mod secp_n = 0 -> e = Some ErrInvalidPublicKey) /\
    (IL I mod secp_n <> 0 -> e = None /\ exists data, length data = 33%nat /\ r = xkey v (bZ (Zb d + 1)) (firstn 4 (hash160 H (k0 :: xs))) (ser32 i) (IR I) data).
Proof.
intros H T v d f n c k0 xs i HP HT HF HV H0 Lx Hi I.
rewrite (NewChildKey_pub H v d f n c (k0 :: xs) HP HF); [|cbn [length]; congruence|exact H0|exact HT].
replace (HARD <=? i) with false by (symmetry; apply Z.leb_gt; unfold HARD; lia). cbv zeta. destruct (pub_lookup T v HT HV) as (h & ->). fold I.
destruct (Z.eqb_spec (IL I mod secp_n) 0) as [Z|Z]; do 2 eexists; (split; [reflexivity|]); (split; [intros C|intros C]); try contradiction; [reflexivity|].
split; [reflexivity|]. eexists. split; [|reflexivity]. unfold sumkey.
destruct (addPublicKeys_total (comp (kG (IL I))) (k0 :: xs)) as (q & -> & Lq); [intros E; apply (f_equal (@length byte)) in E; rewrite comp_length in E; discriminate E|discriminate|].
rewrite firstn_length. lia.
Qed.

Lemma CurveAdd_off x1 y1 X Y : PAff x1 y1 <> PAff F0 F0 -> 0 <= X < 2 ^ 256 -> 0 <= Y < 2 ^ 256 -> ~ (X = 0 /\ Y = 0) -> toF X <> x1 ->
  CurveAdd (enc (PAff x1 y1)) (X, Y) = enc (cadd (PAff x1 y1) (PAff (toF X) (toF Y))).
Proof.
  intros N RX RY N2 NX. cbn [enc]. unfold CurveAdd.
  assert (C1 : (fv x1 =? 0) && (fv y1 =? 0) = false).
  { apply not_true_is_false. intros C. apply andb_true_iff in C as [C1 C2]. apply Z.eqb_eq in C1, C2. apply N. f_equal; apply Fp_eq; assumption. }
  rewrite C1. assert (C2 : (X =? 0) && (Y =? 0) = false) by lia. rewrite C2. cbv zeta. rewrite !field32_fv, !fred_fv. rewrite !field32_small by assumption.
  assert (NE : fv x1 <> fv (toF X)) by (intros C; apply NX; symmetry; apply Fp_eq; exact C).
  assert (C3 : (fv x1 =? X) = false) by (apply Z.eqb_neq; intros C; apply NE; rewrite fv_toF, <- C; symmetry; apply fv_mod). rewrite C3.
  rewrite !fred_mod. rewrite <- !fv_toF. replace (fv x1 =? fv (toF X)) with false by (symmetry; apply Z.eqb_neq; exact NE).
  unfold cadd, aadd. replace (Feqb x1 (toF X)) with false by (symmetry; apply Feqb_neq; congruence).
  set (X2 := toF X). set (Y2 := toF Y). clearbody X2 Y2. unfold line_add. cbn [enc].
  set (l := fmul (fsub (fv Y2) (fv y1)) (finv (fsub (fv X2) (fv x1)))).
  assert (El : toF l = Fdiv (Fsub Y2 y1) (Fsub X2 x1)) by (unfold l; rewrite toF_fmul, toF_finv, !toF_fsub, !toF_fv; reflexivity).
  set (x3 := fsub (fsub (fmul l l) (fv x1)) (fv X2)).
  assert (E3 : toF x3 = Fsub (Fsub (Fmul (toF l) (toF l)) x1) X2) by (unfold x3; rewrite !toF_fsub, toF_fmul, !toF_fv; reflexivity).
  rewrite <- El, <- E3. f_equal.
  - symmetry. apply fv_toF_small. apply fsub_range.
  - rewrite <- (fv_toF_small (fsub _ _)) at 1 by apply fsub_range. f_equal. rewrite toF_fsub, toF_fmul, toF_fsub, !toF_fv. reflexivity.
Qed.

Lemma C99_off_curve_refuted_l : forall H T v d f n c k0 xs i, prims_ok H -> after_init T -> fields_ok v f n c -> pub_registered v -> k0 <> x00 -> length xs = 32%nat -> 0 <= i < 2 ^ 31 ->
  (forall y, ~ oncurve (PAff (toF (be_Z xs)) y)) ->
  let I := p_hmac512 H c ((k0 :: xs) ++ ser32 i) in
  IL I mod secp_n <> 0 ->
  ~ valid_xkey (xkey v d f n c (k0 :: xs)) /\
  NewChildKey H T (xkey v d f n c (k0 :: xs)) i = Ret (xkey v (bZ (Zb d + 1)) (firstn 4 (hash160 H (k0 :: xs))) (ser32 i) (IR I)
    (if Byte.eqb k0 x02 && (be_Z xs =? 0) then serPb (kG (IL I)) else comp (cadd (kG (IL I)) (PAff (toF (be_Z xs)) F0))), None).
Proof.
intros H T v d f n c k0 xs i HP HT HF HV H0 Lx Hi HO I Z. split.
{ intros (v' & d' & f' & n' & c' & HF' & _ & [[_ (s' & Hs' & E)]|[_ (P & OP & NP & E)]]).
  - unfold xprv in E. apply xkey_inj in E; [|exact HF|exact HF']. destruct E as (_ & _ & _ & _ & _ & E). injection E as -> _. contradiction.
  - unfold xpub in E. apply xkey_inj in E; [|exact HF|exact HF']. destruct E as (_ & _ & _ & _ & _ & E). destruct P as [|x y]; [contradiction|]. cbn [serPb serP] in E.
    apply (f_equal (@tl byte)) in E. cbn [tl] in E. apply (HO y). rewrite E. rewrite be_Z_be, (Z.mod_small (fv x)) by apply fv_p256. rewrite toF_fv. exact OP. }
rewrite (NewChildKey_pub H v d f n c (k0 :: xs) HP HF); [|cbn [length]; congruence|exact H0|exact HT].
replace (HARD <=? i) with false by (symmetry; apply Z.leb_gt; unfold HARD; lia). cbv zeta. destruct (pub_lookup T v HT HV) as (h & ->). fold I.
destruct (Z.eqb_spec (IL I mod secp_n) 0) as [C|_]; [contradiction|]. do 3 f_equal.
unfold sumkey. set (W := kG (IL I)). assert (NW : W <> PInf) by (intros C; apply kG_inf_iff in C; [contradiction|apply IL_nonneg]).
assert (OW : oncurve W) by apply kG_on. clearbody W. unfold addPublicKeys. rewrite comp_aff by exact NW. rewrite (Expand_ser W OW NW). cbn [bind].
rewrite (Expand_off k0 xs HO). cbn [bind]. pose proof (be_Z_range xs) as RX. rewrite Lx in RX. change (p256 32) with (2 ^ 256) in RX.
destruct W as [|x1 y1]; [contradiction|].
assert (N0 : PAff x1 y1 <> PAff F0 F0) by (intros C; rewrite C in OW; exact (origin_off OW)).
assert (NX : toF (be_Z xs) <> x1) by (intros C; apply (HO y1); rewrite C; exact OW).
assert (FIN : forall P, firstn 33 (comp P) = comp P) by (intros P; apply firstn_all2; rewrite comp_length; lia).
destruct (Byte.eqb k0 x02); cbn [andb].
- destruct (Z.eqb_spec (be_Z xs) 0) as [X0|X0].
  + rewrite X0. unfold CurveAdd. cbn [enc]. 
    destruct ((fv x1 =? 0) && (fv y1 =? 0)) eqn:C1.
    { exfalso. apply andb_true_iff in C1 as [C1 C2]. apply Z.eqb_eq in C1, C2. apply N0. f_equal; apply Fp_eq; assumption. }
    cbn [Z.eqb andb]. change (fv x1, fv y1) with (enc (PAff x1 y1)). rewrite compress_enc, FIN. apply comp_aff. discriminate.
  + rewrite CurveAdd_off by (try assumption; lia). rewrite compress_enc, FIN. reflexivity.
- rewrite CurveAdd_off by (try assumption; unfold secp_p; lia). rewrite compress_enc, FIN. replace (toF secp_p) with F0 by (apply Fp_eq; vm_compute; reflexivity). reflexivity.
Qed.

Lemma header_23 k0 m : (Zb k0 - 2) mod 2 ^ 64 = m mod 2 -> k0 = x02 \/ k0 = x03.
Proof.
  intros C. pose proof (Z.mod_pos_bound m 2 ltac:(lia)) as B2. pose proof (Zb_range k0) as B0.
  assert (S : Zb k0 = 2 \/ Zb k0 = 3).
  { destruct (Z_le_gt_dec 2 (Zb k0)); [rewrite Z.mod_small in C by lia; lia|].
    replace (Zb k0 - 2) with (Zb k0 - 2 + 2 ^ 64 + (-1) * 2 ^ 64) in C by ring. rewrite Z_mod_plus_full, Z.mod_small in C; lia. }
  destruct S as [S|S]; [left|right]; apply Zb_inj; exact S.
Qed.

Lemma C99_other_header_refuted_l : forall H T v d f n c k0 xs y i, prims_ok H -> after_init T -> fields_ok v f n c -> pub_registered v -> ~ In k0 [x00; x02; x03] -> length xs = 32%nat -> 0 <= i < 2 ^ 31 ->
  oncurve (PAff (toF (be_Z xs)) y) -> (exists w, fv (Fopp y) = (w * w) mod secp_p) ->
  let I := p_hmac512 H c ((k0 :: xs) ++ ser32 i) in
  IL I mod secp_n <> 0 ->
  ~ valid_xkey (xkey v d f n c (k0 :: xs)) /\
  NewChildKey H T (xkey v d f n c (k0 :: xs)) i = Ret (xkey v (bZ (Zb d + 1)) (firstn 4 (hash160 H (k0 :: xs))) (ser32 i) (IR I)
    (if (secp_p <=? be_Z xs) && (fst (enc (kG (IL I))) =? be_Z xs mod secp_p) then x02 :: repeat x00 32
     else comp (cadd (kG (IL I)) (PAff (toF (be_Z xs)) y))), None).
Proof.
intros H T v d f n c k0 xs y i HP HT HF HV H0 Lx Hi HO (w & Hw) I Z.
assert (K0 : k0 <> x00 /\ k0 <> x02 /\ k0 <> x03) by (repeat split; intros ->; apply H0; cbn; tauto). destruct K0 as (K0 & K2 & K3). split.
{ intros (v' & d' & f' & n' & c' & HF' & _ & [[_ (s' & Hs' & E)]|[_ (P & OP & NP & E)]]).
  - unfold xprv in E. apply xkey_inj in E; [|exact HF|exact HF']. destruct E as (_ & _ & _ & _ & _ & E). injection E as -> _. contradiction.
  - unfold xpub in E. apply xkey_inj in E; [|exact HF|exact HF']. destruct E as (_ & _ & _ & _ & _ & E). destruct P as [|x q]; [contradiction|]. cbn [serPb serP] in E.
    apply (f_equal (fun l => nth 0 l x00)) in E. cbn [nth] in E. destruct (Z.even (fv q)); congruence. }
rewrite (NewChildKey_pub H v d f n c (k0 :: xs) HP HF); [|cbn [length]; congruence|exact K0|exact HT].
replace (HARD <=? i) with false by (symmetry; apply Z.leb_gt; unfold HARD; lia). cbv zeta. destruct (pub_lookup T v HT HV) as (h & ->). fold I.
destruct (Z.eqb_spec (IL I mod secp_n) 0) as [C|_]; [contradiction|]. do 3 f_equal.
unfold sumkey. set (W := kG (IL I)). assert (NW : W <> PInf) by (intros C; apply kG_inf_iff in C; [contradiction|apply IL_nonneg]).
assert (OW : oncurve W) by apply kG_on. clearbody W. unfold addPublicKeys. rewrite comp_aff by exact NW. rewrite (Expand_ser W OW NW). cbn [bind].
assert (EE : ExpandPublicKey (k0 :: xs) = Ret (be_Z xs, fv y)).
{ rewrite Expand_cons. f_equal. f_equal. pose proof (curve_sq _ _ HO) as Q. pose proof (y_nonzero _ _ HO) as Yn.
  destruct (C96_root_l secp_p (be_Z xs ^ 3 + secp_b) secp_p_prime eq_refl) as [[_ C]|(z & Ez & Rz & Sz & _ & U)].
  - exfalso. apply C. exists (fv y). rewrite fv_toF in Q. rewrite cube_mod in Q. rewrite Q. unfold Fmul. rewrite fv_toF. reflexivity.
  - rewrite C96_model_l in Ez. assert (Ez' : ModSqrt (be_Z xs ^ 3 + secp_b) = Some z) by congruence. rewrite Ez'. clear Ez Ez'.
    assert (z = fv (Fopp y)).
    { symmetry. apply U; [apply fv_range| |].
      - rewrite fv_toF in Q. rewrite cube_mod in Q. rewrite Q. replace (Fmul y y) with (Fmul (Fopp y) (Fopp y)) by ring. unfold Fmul. rewrite fv_toF. reflexivity.
      - exists w. rewrite Hw. rewrite Z.mod_mod by apply secp_p_nz. reflexivity. }
    subst z. rewrite fv_opp by exact Yn. unfold sel_y. destruct (Z.eqb_spec ((Zb k0 - 2) mod 2 ^ 64) ((secp_p - fv y) mod 2)) as [C|C]; [|lia].
    exfalso. destruct (header_23 _ _ C); contradiction. }
rewrite EE. cbn [bind]. rewrite (CurveAdd_alias W xs y OW NW Lx HO).
destruct ((secp_p <=? be_Z xs) && (fst (enc W) =? be_Z xs mod secp_p)); [reflexivity|]. rewrite compress_enc. apply firstn_all2. rewrite comp_length. lia.
Qed.

Lemma C99_ex_l : after_init T0 /\ fields_ok xpub_version z4 z4 z32 /\ pub_registered xpub_version /\ pvt_registered xprv_version /\
(exists H, prims_ok H /\ (forall k x, IL (p_hmac512 H k x) = 1)) /\ (forall y, ~ oncurve (PAff (toF (be_Z (repeat x00 32))) y)) /\
(forall x y, oncurve (PAff x y) -> exists y', oncurve (PAff x y') /\ exists w, fv (Fopp y') = (w * w) mod secp_p).
Proof.
split; [exact T0_ok|]. split; [exact xpv|]. split; [exact xpub_reg|]. split; [exact xprv_reg|]. split; [exists (constP (ILbytes 1)); split; [apply constP_ok, ILbytes_length|intros k x; apply (IL_ILbytes 1); lia]|].
split; [exact (proj1 (proj2 C33_off_curve_refuted_l))|]. intros x y HO.
destruct (C96_root_l secp_p (fv x ^ 3 + secp_b) secp_p_prime eq_refl) as [[_ C]|(z & Ez & Rz & Sz & (w & Hw) & _)].
- exfalso. apply C. exists (fv y). rewrite (curve_sq x y HO). unfold Fmul. rewrite fv_toF. reflexivity.
- exists (Fopp (toF z)). split.
  + pose proof HO as HQ. unfold oncurve, on in HQ |- *. rewrite <- HQ. replace (Fmul (Fopp (toF z)) (Fopp (toF z))) with (Fmul (toF z) (toF z)) by ring. apply Fp_eq.
    rewrite <- (curve_sq x y HO), <- Sz. unfold Fmul. rewrite !fv_toF. rewrite <- Zmult_mod. reflexivity.
  + exists w. replace (Fopp (Fopp (toF z))) with (toF z) by ring. rewrite fv_toF. symmetry. exact Hw.
Qed.
