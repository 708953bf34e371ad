(** HashStdFacts.v - the record of hash functions fixed by the standards. *)
From Verif Require Import Base BaseFacts Prims Hash HashFacts Secp Bip39 Bip32 Bip32Facts SpecBip32 SpecHash SpecPrims
  GoHashFacts SpecSha2Facts SpecRmdFacts SpecKeccakFacts.

Lemma sha512_is : is_sha512 sha512.
Proof. intros K IV m HK. apply (sha512_fips K IV m _ HK). reflexivity. Qed.
Lemma is_sha512_eq h : is_sha512 h -> forall m, h m = sha512 m.
Proof. intros Hh m. apply (sha512_fips _ _ m (h m) constants512). apply Hh. exact constants512. Qed.
Lemma HMAC_ext h h' blk k m : (forall x, h x = h' x) -> HMAC h blk k m = HMAC h' blk k m.
Proof. intros E. unfold HMAC. cbv zeta. rewrite !E. reflexivity. Qed.
Lemma hmac_std h k m : is_sha512 h -> hmac512 k m = HMAC h 128 k m.
Proof. intros Hh. rewrite hmac512_HMAC. apply HMAC_ext. intros x. symmetry. apply is_sha512_eq. exact Hh. Qed.
Lemma pbkdf2_std h pw salt : is_sha512 h -> pbkdf2 pw salt = PBKDF2 (HMAC h 128) 64 pw salt 2048 64.
Proof. intros Hh. rewrite pbkdf2_PBKDF2. apply PBKDF2_ext. intros k m. apply hmac_std. exact Hh. Qed.
Theorem real_standard : standard_prims RealPrims.
Proof.
  assert (G : forall H, (forall x, p_sha256 H x = sha256 x) -> (forall x, p_ripemd160 H x = ripemd160 x) ->
    (forall x, p_keccak256 H x = keccak256 x) -> (forall k x, p_hmac512 H k x = hmac512 k x) ->
    (forall pw salt, p_pbkdf2 H pw salt = pbkdf2 pw salt) -> standard_prims H).
  { intros H E1 E2 E3 E4 E5. split; [|split; [|split; [|split]]].
    - intros K IV m HK. apply (sha256_fips K IV m _ HK). apply E1.
    - intros K K' m HK. apply (rmd_digest_iff K K' HK m _). apply E2.
    - intros off m Ho. apply (keccak_digest_iff off m _ Ho). apply E3.
    - intros h k m Hh. rewrite E4. apply hmac_std. exact Hh.
    - intros h pw salt Hh. rewrite E5. apply pbkdf2_std. exact Hh. }
  apply G; reflexivity.
Qed.
Theorem standard_unique H : standard_prims H ->
  prims_ok H /\
  (forall x, p_sha256 H x = p_sha256 RealPrims x) /\ (forall x, p_ripemd160 H x = p_ripemd160 RealPrims x) /\
  (forall x, p_keccak256 H x = p_keccak256 RealPrims x) /\ (forall k x, p_hmac512 H k x = p_hmac512 RealPrims k x) /\
  (forall pw salt, p_pbkdf2 H pw salt = p_pbkdf2 RealPrims pw salt).
Proof.
  assert (G : forall H G, standard_prims H -> standard_prims G -> prims_ok G ->
    prims_ok H /\
    (forall x, p_sha256 H x = p_sha256 G x) /\ (forall x, p_ripemd160 H x = p_ripemd160 G x) /\
    (forall x, p_keccak256 H x = p_keccak256 G x) /\ (forall k x, p_hmac512 H k x = p_hmac512 G k x) /\
    (forall pw salt, p_pbkdf2 H pw salt = p_pbkdf2 G pw salt)).
  { clear H. intros H G (S2 & SR & SK & SH & SP) (S2' & SR' & SK' & SH' & SP') (R1 & R2 & R3 & R4 & R5).
    assert (E1 : forall x, p_sha256 H x = p_sha256 G x).
    { intros x. etransitivity; [|symmetry]; apply (sha256_fips _ _ x _ constants256); [apply S2|apply S2']; exact constants256. }
    assert (E2 : forall x, p_ripemd160 H x = p_ripemd160 G x).
    { intros x. etransitivity; [|symmetry]; apply (rmd_digest_iff _ _ rmd_constants_ok x _); [apply SR|apply SR']; exact rmd_constants_ok. }
    assert (E3 : forall x, p_keccak256 H x = p_keccak256 G x).
    { intros x. etransitivity; [|symmetry]; apply (keccak_digest_iff _ x _ keccak_off_ok); [apply SK|apply SK']; exact keccak_off_ok. }
    assert (E4 : forall k x, p_hmac512 H k x = p_hmac512 G k x).
    { intros k x. rewrite (SH sha512 k x sha512_is), (SH' sha512 k x sha512_is). reflexivity. }
    assert (E5 : forall pw salt, p_pbkdf2 H pw salt = p_pbkdf2 G pw salt).
    { intros pw salt. rewrite (SP sha512 pw salt sha512_is), (SP' sha512 pw salt sha512_is). reflexivity. }
    split; [|repeat split; assumption].
    split; [|split; [|split; [|split]]]; intros.
    - rewrite E1. apply R1.
    - rewrite E2. apply R2.
    - rewrite E4. apply R3.
    - rewrite E3. apply R4.
    - rewrite E5. apply R5. }
  intros HS. exact (G H RealPrims HS real_standard real_prims_ok).
Qed.
Theorem seed_standard H h : standard_prims H -> is_sha512 h ->
  (forall m password, NewSeed H m password = PBKDF2 (HMAC h 128) 64 m (B "mnemonic" ++ password) 2048 64) /\
  (forall seed, let I := HMAC h 128 (B "Bitcoin seed") seed in
    (1 <= be_Z (firstn 32 I) < secp_n ->
      NewMasterKey H seed = Ret (Some ([x04; x88; xad; xe4] ++ repeat x00 9 ++ skipn 32 I ++ [x00] ++ firstn 32 I), None)) /\
    (~ 1 <= be_Z (firstn 32 I) < secp_n -> exists e, NewMasterKey H seed = Ret (None, Some e))).
Proof.
  intros HS Hh. pose proof (proj1 (standard_unique H HS)) as HP. destruct HS as (_ & _ & _ & SH & SP).
  split; [intros m password; unfold NewSeed; apply SP; exact Hh|].
  intros seed. cbv zeta. rewrite <- (SH h _ _ Hh). rewrite (NewMasterKey_spec H seed HP).
  unfold master, I_master, IL, IR, parse256. cbv zeta.
  assert (LI : length (p_hmac512 H (B "Bitcoin seed") seed) = 64%nat) by apply HP.
  revert LI. generalize (p_hmac512 H (B "Bitcoin seed") seed). intros I LI.
  pose proof (be_Z_range (firstn 32 I)) as R.
  destruct (Z.eqb_spec (be_Z (firstn 32 I)) 0) as [E|E]; cbn [orb].
  - split; [lia|]. intros _. eexists. reflexivity.
  - destruct (Z.leb_spec secp_n (be_Z (firstn 32 I))) as [Q|Q].
    + split; [lia|]. intros _. eexists. reflexivity.
    + split; [|lia]. intros _. do 3 f_equal. unfold xprv, xkey, ser256.
      rewrite Z_be_be_Z by (rewrite firstn_length, LI; reflexivity). reflexivity.
Qed.
