(** GoHashFacts.v - the hash objects compute the one-shot hashes of Hash.v, however the data is split. *)
From Coq Require Import ZifyBool ZifyNat.
From Verif Require Import Base BaseFacts Bip32 Prims Hash HashFacts GoHash SpecHash.

(** ** Chunks *)
Lemma chunks_fuel n : (0 < n)%nat -> forall f g (l : bytes), (length l <= f)%nat -> (length l <= g)%nat ->
  chunks f n l = chunks g n l.
Proof.
  intros Hn. induction f as [|f IH]; intros g l Hf Hg.
  - destruct l; [|simpl in Hf; lia]. destruct g; reflexivity.
  - destruct l as [|b l]; [destruct g; reflexivity|]. destruct g as [|g]; [simpl in Hg; lia|].
    cbn [chunks]. f_equal. apply IH; rewrite skipn_length; cbn [length] in *; lia.
Qed.
Lemma chunk_cons n (l : bytes) : (0 < n)%nat -> l <> [] -> chunk n l = firstn n l :: chunk n (skipn n l).
Proof.
  intros Hn Hl. unfold chunk. destruct l as [|b l]; [congruence|]. cbn [length chunks]. f_equal.
  apply chunks_fuel; [exact Hn| |lia]. rewrite skipn_length. cbn [length]. lia.
Qed.
Lemma chunk_app n k : forall (a b : bytes), (0 < n)%nat -> length a = (k * n)%nat -> chunk n (a ++ b) = chunk n a ++ chunk n b.
Proof.
  induction k as [|k IH]; intros a b Hn Ha.
  - destruct a; [reflexivity|simpl in Ha; lia].
  - assert (Hne : a <> []) by (intros ->; simpl in Ha; nia).
    rewrite (chunk_cons n a), (chunk_cons n (a ++ b)); [|lia| |lia|exact Hne].
    2:{ destruct a; [congruence|discriminate]. }
    rewrite firstn_app, skipn_app. replace (n - length a)%nat with O by nia.
    cbn [firstn skipn]. rewrite app_nil_r. cbn [app]. f_equal. apply IH; [exact Hn|].
    rewrite skipn_length. nia.
Qed.
Lemma chunk_one n (a : bytes) : (0 < n)%nat -> length a = n -> chunk n a = [a].
Proof.
  intros Hn Ha. rewrite chunk_cons; [|lia|intros ->; simpl in Ha; lia].
  rewrite firstn_all2, skipn_all2 by lia. reflexivity.
Qed.

(** ** Digest objects *)
Section MD.
  Variable A : alg.
  Hypothesis Hblk : (0 < al_blk A)%nat.
  Lemma block_app k h a b : length a = (k * al_blk A)%nat ->
    dg_block A h (a ++ b) = dg_block A (dg_block A h a) b.
  Proof. intros Ha. unfold dg_block. rewrite (chunk_app _ k) by assumption. apply fold_left_app. Qed.
  (** object [d] has been given the bytes [m] since [h0] (length [n0] before) *)
  Definition holds (h0 : list Z) (n0 : Z) (m : bytes) (d : digest) : Prop :=
    exists k a, m = a ++ dg_x d /\ length a = (k * al_blk A)%nat /\ dg_h d = dg_block A h0 a /\
      (length (dg_x d) < al_blk A)%nat /\ dg_len d = (n0 + Z.of_nat (length m)) mod 2 ^ 64.
  Lemma holds_start h0 n0 : 0 <= n0 < 2 ^ 64 -> holds h0 n0 [] (mkDg h0 [] n0).
  Proof.
    intros Hn. exists O, []. cbn [dg_x dg_h dg_len app length]. repeat split; [exact Hblk|].
    rewrite Z.add_0_r, Z.mod_small; lia.
  Qed.
  Lemma holds_write h0 n0 m d p : holds h0 n0 m d -> holds h0 n0 (m ++ p) (dg_write A d p).
  Proof.
    intros (k & a & Hm & Ha & Hh & Hx & Hl).
    assert (HL : (dg_len d + Z.of_nat (length p)) mod 2 ^ 64 = (n0 + Z.of_nat (length (m ++ p))) mod 2 ^ 64).
    { rewrite Hl, app_length. rewrite Zplus_mod_idemp_l. f_equal. lia. }
    (* after the whole blocks and the rest of q, from a state with nothing buffered *)
    assert (Tail : forall k a q, length a = (k * al_blk A)%nat -> m ++ p = a ++ q ->
      holds h0 n0 (m ++ p)
        (let '(h, r) := if (al_blk A <=? length q)%nat then
             let n := (length q - length q mod al_blk A)%nat in (dg_block A (dg_block A h0 a) (firstn n q), skipn n q)
           else (dg_block A h0 a, q) in
         mkDg h (if (0 <? length r)%nat then firstn (al_blk A) r else []) ((dg_len d + Z.of_nat (length p)) mod 2 ^ 64))).
    { clear k a Hm Ha Hh. intros k a q Ha Hm.
      destruct (Nat.leb_spec (al_blk A) (length q)) as [Hq|Hq].
      - cbv zeta. set (n := (length q - length q mod al_blk A)%nat).
        pose proof (Nat.div_mod (length q) (al_blk A) ltac:(lia)) as Hd.
        pose proof (Nat.mod_upper_bound (length q) (al_blk A) ltac:(lia)) as Hu.
        assert (Hn : n = (length q / al_blk A * al_blk A)%nat) by (unfold n; nia).
        assert (Hr : (length (skipn n q) < al_blk A)%nat) by (rewrite skipn_length; unfold n; nia).
        exists (k + length q / al_blk A)%nat, (a ++ firstn n q). cbn [dg_x dg_h dg_len].
        assert (Hxx : (if (0 <? length (skipn n q))%nat then firstn (al_blk A) (skipn n q) else []) = skipn n q).
        { destruct (Nat.ltb_spec 0 (length (skipn n q))) as [Hz|Hz]; [apply firstn_all2; lia|].
          destruct (skipn n q); [reflexivity|simpl in Hz; lia]. }
        rewrite Hxx. repeat split.
        + rewrite <- app_assoc, firstn_skipn. exact Hm.
        + rewrite app_length, firstn_length_le by (unfold n; lia). rewrite Hn, Ha. lia.
        + symmetry. apply (block_app k). exact Ha.
        + exact Hr.
        + exact HL.
      - exists k, a. cbn [dg_x dg_h dg_len].
        assert (Hxx : (if (0 <? length q)%nat then firstn (al_blk A) q else []) = q).
        { destruct (Nat.ltb_spec 0 (length q)) as [Hz|Hz]; [apply firstn_all2; lia|].
          destruct q; [reflexivity|simpl in Hz; lia]. }
        rewrite Hxx. repeat split; [exact Hm|exact Ha|exact Hq|exact HL]. }
    unfold dg_write. cbv zeta. destruct (Nat.ltb_spec 0 (length (dg_x d))) as [H0|H0].
    - set (n := Nat.min (al_blk A - length (dg_x d)) (length p)).
      destruct (Nat.eqb_spec (length (dg_x d ++ firstn n p)) (al_blk A)) as [He|He].
      + rewrite app_length, firstn_length_le in He by lia.
        rewrite Hh, <- (block_app k h0 a) by exact Ha.
        apply (Tail (S k)).
        * rewrite !app_length, firstn_length_le by lia. lia.
        * rewrite Hm, <- !app_assoc, firstn_skipn. reflexivity.
      + rewrite app_length, firstn_length_le in He by lia.
        assert (Hn : n = length p) by lia.
        rewrite Hn, skipn_all, firstn_all. cbn [length].
        destruct (Nat.leb_spec (al_blk A) 0) as [Hb|Hb]; [lia|]. cbn [length Nat.ltb Nat.leb].
        exists k, a. cbn [dg_x dg_h dg_len]. repeat split.
        * rewrite Hm, <- app_assoc. reflexivity.
        * exact Ha.
        * exact Hh.
        * rewrite app_length. lia.
        * exact HL.
    - assert (Hx0 : dg_x d = []) by (destruct (dg_x d); [reflexivity|simpl in H0; lia]).
      rewrite Hx0, Hh. apply (Tail k); [exact Ha|]. rewrite Hm, Hx0, app_nil_r. reflexivity.
  Qed.
  Lemma holds_done h0 n0 m d k : holds h0 n0 m d -> length m = (k * al_blk A)%nat ->
    dg_x d = [] /\ dg_h d = dg_block A h0 m.
  Proof.
    intros (k' & a & Hm & Ha & Hh & Hx & _) Hk.
    assert (dg_x d = []).
    { rewrite Hm, app_length in Hk. destruct (dg_x d) as [|b l] eqn:E; [reflexivity|]. exfalso. cbn [length] in *.
      assert (k = k' \/ k <= k' - 1 \/ k' + 1 <= k)%nat as [-> | [Q | Q]] by lia; nia. }
    split; [assumption|]. rewrite Hm, H, app_nil_r. exact Hh.
  Qed.
  Lemma holds_writes h0 n0 ps : forall m d, holds h0 n0 m d ->
    holds h0 n0 (m ++ concat ps) (fold_left (dg_write A) ps d).
  Proof.
    induction ps as [|p ps IH]; intros m d Hd; cbn [concat fold_left].
    - rewrite app_nil_r. exact Hd.
    - rewrite app_assoc. apply IH. apply holds_write. exact Hd.
  Qed.
End MD.

Lemma pad_zeros_eq blk lenb n : (lenb < blk)%nat ->
  pad_zeros blk lenb n =
    (if n mod blk <? blk - lenb then blk - lenb - n mod blk - 1 else blk + blk - lenb - n mod blk - 1)%nat.
Proof.
  intros H. unfold pad_zeros. pose proof (Nat.mod_upper_bound n blk ltac:(lia)) as Hu.
  pose proof (Nat.div_mod n blk ltac:(lia)) as Hd. set (L := (n mod blk)%nat) in *. set (q := (n / blk)%nat) in *.
  destruct (Nat.ltb_spec L (blk - lenb)) as [Hl|Hl].
  - destruct (Nat.eq_dec (L + 1 + lenb) blk) as [E|E].
    + replace ((n + 1 + lenb) mod blk)%nat with O.
      * rewrite Nat.sub_0_r, Nat.mod_same by lia. lia.
      * apply Nat.mod_unique with (S q); nia.
    + replace ((n + 1 + lenb) mod blk)%nat with (L + 1 + lenb)%nat.
      * rewrite Nat.mod_small by lia. lia.
      * apply Nat.mod_unique with q; nia.
  - replace ((n + 1 + lenb) mod blk)%nat with (L + 1 + lenb - blk)%nat.
    * rewrite Nat.mod_small by lia. lia.
    * apply Nat.mod_unique with (S q); nia.
Qed.
Lemma pad_multiple blk lenb n : (lenb < blk)%nat -> exists k, (n + 1 + pad_zeros blk lenb n + lenb = k * blk)%nat.
Proof.
  intros H. rewrite pad_zeros_eq by exact H. pose proof (Nat.mod_upper_bound n blk ltac:(lia)) as Hu.
  pose proof (Nat.div_mod n blk ltac:(lia)) as Hd. set (L := (n mod blk)%nat) in *. set (q := (n / blk)%nat) in *.
  destruct (Nat.ltb_spec L (blk - lenb)) as [Hl|Hl]; [exists (S q)|exists (S (S q))]; nia.
Qed.
Lemma Z_be_wide up z : 0 <= z < 2 ^ 64 -> Z_be (up + 8) z = repeat x00 up ++ Z_be 8 z.
Proof.
  intros Hz. rewrite Z_be_app. change (p256 8) with (2 ^ 64). rewrite Z.div_small by exact Hz.
  rewrite Z_be_zero. reflexivity.
Qed.
Lemma md_pad_length blk lenb le m : length (md_pad blk lenb le 0 m) = (length m + 1 + pad_zeros blk lenb (length m) + lenb)%nat.
Proof.
  unfold md_pad. cbv zeta. rewrite app_length. cbn [length]. rewrite app_length, repeat_length.
  destruct le; [rewrite rev_length|]; rewrite Z_be_length; lia.
Qed.
Section Sum.
  Variable A : alg.
  Hypothesis Hblk : (0 < al_blk A)%nat.
  Lemma dg_sum_spec up m d : (up + 8 < al_blk A)%nat -> Z.of_nat (length m) < 2 ^ 61 ->
    holds A (al_iv A) 0 m d ->
    dg_sum A up d = Ret (al_out A (dg_block A (al_iv A) (md_pad (al_blk A) (up + 8) false 0 m))).
  Proof.
    intros Hup Hlen Hd. unfold dg_sum. cbv zeta.
    assert (Hl : dg_len d = Z.of_nat (length m)).
    { destruct Hd as (? & ? & _ & _ & _ & _ & ->). rewrite Z.mod_small; lia. }
    rewrite Hl. rewrite (Z.mod_small (Z.of_nat (length m) * 8)) by lia.
    set (pad := x80 :: _).
    assert (Hpad : m ++ pad = md_pad (al_blk A) (up + 8) false 0 m).
    { unfold md_pad, pad. cbv zeta. f_equal. f_equal. f_equal.
      - f_equal. rewrite pad_zeros_eq by exact Hup. rewrite <- Nat2Z.inj_mod.
        pose proof (Nat.mod_upper_bound (length m) (al_blk A) ltac:(lia)).
        destruct (Nat.ltb_spec (length m mod al_blk A) (al_blk A - (up + 8))) as [Q|Q];
          destruct (Z.ltb_spec (Z.of_nat (length m mod al_blk A)) (Z.of_nat (al_blk A) - (Z.of_nat up + 8))) as [Q'|Q']; lia.
      - rewrite Z_be_wide by (cbn [Nat.add]; lia). do 2 f_equal. cbn [Nat.add]. lia. }
    pose proof (holds_write A Hblk _ _ _ _ pad Hd) as Hw. rewrite Hpad in Hw.
    destruct (pad_multiple (al_blk A) (up + 8) (length m) Hup) as [k Hk].
    destruct (holds_done A Hblk _ _ _ _ k Hw) as [Hx Hh]; [rewrite md_pad_length; exact Hk|].
    rewrite Hx, Hh. reflexivity.
  Qed.
End Sum.
Theorem sha256_writes ps : Z.of_nat (length (concat ps)) < 2 ^ 61 ->
  dg_sum Sha256 0 (fold_left (dg_write Sha256) ps (dg_new Sha256)) = Ret (sha256 (concat ps)).
Proof.
  intros Hl. apply (dg_sum_spec Sha256); [cbn; lia|cbn; lia|exact Hl|].
  apply (holds_writes Sha256 ltac:(cbn; lia) _ _ ps [] (dg_new Sha256)). apply holds_start; [cbn; lia|lia].
Qed.
Theorem sha512_writes ps : Z.of_nat (length (concat ps)) < 2 ^ 61 ->
  dg_sum Sha512 8 (fold_left (dg_write Sha512) ps (dg_new Sha512)) = Ret (sha512 (concat ps)).
Proof.
  intros Hl. apply (dg_sum_spec Sha512); [cbn; lia|cbn; lia|exact Hl|].
  apply (holds_writes Sha512 ltac:(cbn; lia) _ _ ps [] (dg_new Sha512)). apply holds_start; [cbn; lia|lia].
Qed.

(** ** RIPEMD-160 *)
Lemma le_bytes8 z : map (fun i => bZ (z / 2 ^ (8 * i))) [0; 1; 2; 3; 4; 5; 6; 7] = rev (Z_be 8 z).
Proof.
  cbn [map Z_be app rev]. rewrite !Z.div_div by lia. change (z / 2 ^ (8 * 0)) with (z / 1). rewrite Z.div_1_r.
  reflexivity.
Qed.
Lemma tmp_firstn t : (0 < t <= 64)%nat -> firstn t (x80 :: repeat x00 63) = x80 :: repeat x00 (t - 1).
Proof.
  intros H. destruct t as [|t]; [lia|]. cbn [firstn]. f_equal. replace (S t - 1)%nat with t by lia.
  replace 63%nat with (t + (63 - t))%nat at 1 by lia. rewrite repeat_app, firstn_app, (firstn_all2 (repeat x00 t)) by (rewrite repeat_length; lia).
  rewrite repeat_length, Nat.sub_diag. cbn [firstn]. apply app_nil_r.
Qed.
Theorem ripemd160_writes ps : Z.of_nat (length (concat ps)) < 2 ^ 61 ->
  dg_sum_le Ripemd160 (fold_left (dg_write Ripemd160) ps (dg_new Ripemd160)) = Ret (ripemd160 (concat ps)).
Proof.
  intros Hlen. set (m := concat ps) in *.
  assert (Hb : (0 < al_blk Ripemd160)%nat) by (cbn; lia).
  assert (Hd : holds Ripemd160 (al_iv Ripemd160) 0 m (fold_left (dg_write Ripemd160) ps (dg_new Ripemd160))).
  { apply (holds_writes Ripemd160 Hb _ _ ps [] (dg_new Ripemd160)). apply holds_start; [exact Hb|lia]. }
  set (d := fold_left _ _ _) in *. clearbody d m. unfold dg_sum_le. cbv zeta.
  assert (Hl : dg_len d = Z.of_nat (length m)).
  { destruct Hd as (? & ? & _ & _ & _ & _ & ->). rewrite Z.mod_small; lia. }
  rewrite Hl. rewrite (Z.mod_small (Z.of_nat (length m) * 8)) by lia.
  rewrite le_bytes8.
  assert (Hp : (if Z.of_nat (length m) mod 64 <? 56
     then firstn (Z.to_nat (56 - Z.of_nat (length m) mod 64)) (x80 :: repeat x00 63)
     else firstn (Z.to_nat (64 + 56 - Z.of_nat (length m) mod 64)) (x80 :: repeat x00 63)) =
     x80 :: repeat x00 (pad_zeros 64 8 (length m))).
  { rewrite pad_zeros_eq by lia. change 64 with (Z.of_nat 64) at 1 2 4. rewrite <- Nat2Z.inj_mod.
    pose proof (Nat.mod_upper_bound (length m) 64 ltac:(lia)).
    set (L := (length m mod 64)%nat) in *. clearbody L. change (64 - 8)%nat with 56%nat.
    destruct (Nat.ltb_spec L 56) as [Q|Q];
      destruct (Z.ltb_spec (Z.of_nat L) 56) as [Q'|Q']; try lia;
      (rewrite tmp_firstn by lia; do 2 f_equal; lia). }
  rewrite Hp. clear Hp.
  pose proof (holds_write Ripemd160 Hb _ _ _ _ (x80 :: repeat x00 (pad_zeros 64 8 (length m))) Hd) as H1.
  pose proof (holds_write Ripemd160 Hb _ _ _ _ (rev (Z_be 8 (Z.of_nat (length m) * 8))) H1) as H2.
  assert (Hpad : (m ++ x80 :: repeat x00 (pad_zeros 64 8 (length m))) ++ rev (Z_be 8 (Z.of_nat (length m) * 8)) =
     md_pad 64 8 true 0 m).
  { unfold md_pad. cbv zeta. rewrite <- app_assoc. cbn [app Nat.add]. rewrite (Z.mul_comm 8). reflexivity. }
  rewrite Hpad in H2.
  destruct (pad_multiple 64 8 (length m) ltac:(lia)) as [k Hk].
  destruct (holds_done Ripemd160 Hb _ _ _ _ k H2) as [Hx Hh]; [rewrite md_pad_length; exact Hk|].
  rewrite Hx, Hh. reflexivity.
Qed.

(** ** HMAC *)
Lemma sha512_length m : length (sha512 m) = 64%nat.
Proof.
  unfold sha512. rewrite (flat_length _ 8) by (intros; apply Z_be_length).
  rewrite sha512_from_length by reflexivity. reflexivity.
Qed.
Lemma hmac_key_length k : length (hmac_key k) = 128%nat.
Proof.
  unfold hmac_key. cbv zeta. rewrite app_length, repeat_length.
  destruct (Z.ltb_spec 128 (Z.of_nat (length k))); [rewrite sha512_length|]; lia.
Qed.
Lemma xor_pad_length k p : length (xor_pad k p) = length k.
Proof. apply map_length. Qed.
Lemma md_pad_shift pre m : length pre = 128%nat ->
  md_pad 128 16 false 0 (pre ++ m) = pre ++ md_pad 128 16 false 128 m.
Proof.
  intros L. unfold md_pad. cbv zeta. rewrite <- app_assoc. do 3 f_equal.
  rewrite app_length, L. f_equal.
  - f_equal. unfold pad_zeros. replace (128 + length m + 1 + 16)%nat with (length m + 1 + 16 + 1 * 128)%nat by lia.
    rewrite Nat.mod_add by lia. reflexivity.
Qed.
Lemma sha512_after pre m : length pre = 128%nat ->
  sha512 (pre ++ m) = flat_map (Z_be 8) (sha512_from (c512 H512 (be_words 8 pre)) 128 m).
Proof.
  intros L. unfold sha512, sha512_from. rewrite md_pad_shift by exact L.
  rewrite (chunk_app 128 1) by lia. rewrite fold_left_app, (chunk_one 128 pre) by lia. reflexivity.
Qed.
Lemma hmac512_nested k m :
  hmac512 k m = sha512 (xor_pad (hmac_key k) 0x5c ++ sha512 (xor_pad (hmac_key k) 0x36 ++ m)).
Proof.
  rewrite !sha512_after by (rewrite xor_pad_length; apply hmac_key_length). reflexivity.
Qed.
Lemma xor_pad_bytes k p b : Zb b = p -> xor_pad k p = xor_bytes k (repeat b (length k)).
Proof.
  intros <-. unfold xor_pad, xor_bytes. induction k as [|x k IH]; [reflexivity|]. cbn [map length repeat combine fst snd].
  f_equal. exact IH.
Qed.
Theorem hmac512_HMAC k m : hmac512 k m = HMAC sha512 128 k m.
Proof.
  rewrite hmac512_nested. unfold HMAC. cbv zeta.
  rewrite (xor_pad_bytes _ 0x5c x5c eq_refl), (xor_pad_bytes _ 0x36 x36 eq_refl), hmac_key_length.
  assert (E : hmac_key k = (if (128 <? length k)%nat then sha512 k else k) ++
    repeat x00 (128 - length (if (128 <? length k)%nat then sha512 k else k))).
  { unfold hmac_key. cbv zeta. destruct (Z.ltb_spec 128 (Z.of_nat (length k))); destruct (Nat.ltb_spec 128 (length k)); try lia; reflexivity. }
  rewrite <- E. reflexivity.
Qed.
(** the object has key [key] and has been given [m] since the last Reset. For bip32/bip32.go:81, 190. *)
Definition hm_ok (key m : bytes) (h : hmac) : Prop :=
  let i := xor_pad (hmac_key key) 0x36 in
  let o := xor_pad (hmac_key key) 0x5c in
  holds Sha512 (al_iv Sha512) 0 (i ++ m) (hm_inner h) /\
  match hm_pads h with
  | Raw ip op => ip = i /\ op = o
  | Saved di do_ => holds Sha512 (al_iv Sha512) 0 i di /\ holds Sha512 (al_iv Sha512) 0 o do_
  end.
Lemma blk512 : (0 < al_blk Sha512)%nat. Proof. cbn; lia. Qed.
Lemma holds_first p : holds Sha512 (al_iv Sha512) 0 p (dg_write Sha512 (dg_new Sha512) p).
Proof.
  apply (holds_write Sha512 blk512 _ _ [] (dg_new Sha512) p). apply holds_start; [exact blk512|lia].
Qed.
Lemma sum512 m d : Z.of_nat (length m) < 2 ^ 61 -> holds Sha512 (al_iv Sha512) 0 m d -> dg_sum Sha512 8 d = Ret (sha512 m).
Proof. intros Hl Hd. apply (dg_sum_spec Sha512 blk512 8 m d); [cbn; lia|exact Hl|exact Hd]. Qed.
Lemma hmac_New_ok key : Z.of_nat (length key) < 2 ^ 61 -> exists h, hmac_New key = Ret h /\ hm_ok key [] h.
Proof.
  intros Hl. unfold hmac_New. cbv zeta. change (al_blk Sha512) with 128%nat.
  assert (E : forall o (k' : bytes), (if (128 <? Z.of_nat (length key)) then sha512 key else key) = k' ->
    exists h, bind (Ret (o, k')) (fun '(outer, key) =>
      Ret (mkHm (dg_write Sha512 (dg_new Sha512) (xor_pad (firstn 128 key ++ repeat x00 (128 - length key)) 0x36)) outer
        (Raw (xor_pad (firstn 128 key ++ repeat x00 (128 - length key)) 0x36)
             (xor_pad (firstn 128 key ++ repeat x00 (128 - length key)) 0x5c)))) = Ret h /\ hm_ok key [] h).
  { intros o k' Hk. cbn [bind].
    assert (Hle : (length k' <= 128)%nat).
    { rewrite <- Hk. destruct (Z.ltb_spec 128 (Z.of_nat (length key))); [rewrite sha512_length|]; lia. }
    rewrite (firstn_all2 k') by lia.
    assert (HK : k' ++ repeat x00 (128 - length k') = hmac_key key) by (unfold hmac_key; cbv zeta; rewrite Hk; reflexivity).
    rewrite HK. eexists. split; [reflexivity|]. unfold hm_ok. cbv zeta. cbn [hm_inner hm_pads]. rewrite app_nil_r.
    split; [apply holds_first|split; reflexivity]. }
  destruct (Nat.ltb_spec 128 (length key)) as [Hk|Hk].
  - rewrite (sum512 key) by (exact Hl || apply holds_first). cbn [bind]. apply E.
    destruct (Z.ltb_spec 128 (Z.of_nat (length key))); [reflexivity|lia].
  - apply E. destruct (Z.ltb_spec 128 (Z.of_nat (length key))); [lia|reflexivity].
Qed.
Lemma hmac_Write_ok key m h p : hm_ok key m h -> hm_ok key (m ++ p) (hmac_Write h p).
Proof.
  intros [Hi Hp]. split; [|exact Hp]. cbn [hmac_Write hm_inner]. rewrite app_assoc.
  apply holds_write; [exact blk512|exact Hi].
Qed.
Lemma hmac_Reset_ok key m h : hm_ok key m h -> hm_ok key [] (hmac_Reset h).
Proof.
  intros [Hi Hp]. unfold hm_ok, hmac_Reset. cbv zeta in *. rewrite app_nil_r.
  destruct (hm_pads h) as [ip op|di do_] eqn:E; cbn [hm_inner hm_pads].
  - destruct Hp as [-> ->]. repeat split; apply holds_first.
  - destruct Hp as [H1 H2]. repeat split; assumption.
Qed.
Lemma hmac_Sum_ok key m h inp : Z.of_nat (length m) < 2 ^ 61 - 128 -> hm_ok key m h ->
  exists h', hmac_Sum h inp = Ret (h', inp ++ hmac512 key m) /\ hm_ok key m h'.
Proof.
  intros Hl [Hi Hp]. cbv zeta in *. unfold hmac_Sum. cbv zeta.
  rewrite (sum512 (xor_pad (hmac_key key) 0x36 ++ m)); [|rewrite app_length, xor_pad_length, hmac_key_length; lia|exact Hi].
  cbn [bind]. rewrite skipn_app, skipn_all, Nat.sub_diag. cbn [skipn app].
  rewrite firstn_app, firstn_all, Nat.sub_diag. cbn [firstn]. rewrite app_nil_r.
  set (o := match hm_pads h with Raw _ o => _ | Saved _ o => _ end).
  assert (Ho : holds Sha512 (al_iv Sha512) 0 (xor_pad (hmac_key key) 0x5c) o).
  { unfold o. destruct (hm_pads h) as [ip op|di do_]; [|apply Hp]. destruct Hp as [_ ->]. apply holds_first. }
  pose proof (holds_write Sha512 blk512 _ _ _ _ (sha512 (xor_pad (hmac_key key) 0x36 ++ m)) Ho) as Hw.
  rewrite (sum512 _ _ ltac:(rewrite app_length, xor_pad_length, hmac_key_length, sha512_length; lia) Hw).
  cbn [bind]. rewrite <- hmac512_nested. eexists. split; [reflexivity|]. split; [exact Hi|exact Hp].
Qed.

(** ** PBKDF2 *)
Lemma hmac_run_ok key ops : forall m h, Z.of_nat (length m + length (written ops)) < 2 ^ 61 - 128 -> hm_ok key m h ->
  exists rs, hmac_run h ops = Ret rs /\ mac_says (hmac512 key) m ops rs.
Proof.
  induction ops as [|o ops IH]; intros m h Hl Hh; [exists []; split; [reflexivity|constructor]|].
  destruct o as [p| |inp]; cbn [written flat_map] in Hl; fold (written ops) in Hl; cbn [hmac_run].
  - rewrite app_length in Hl. destruct (IH (m ++ p) (hmac_Write h p)) as (rs & E & S).
    + rewrite app_length. lia.
    + apply hmac_Write_ok. exact Hh.
    + exists rs. split; [exact E|constructor; exact S].
  - cbn [app] in Hl. destruct (IH [] (hmac_Reset h)) as (rs & E & S).
    + cbn [length]. lia.
    + eapply hmac_Reset_ok. exact Hh.
    + exists rs. split; [exact E|constructor; exact S].
  - cbn [app] in Hl. destruct (hmac_Sum_ok key m h inp ltac:(lia) Hh) as (h' & E' & H'). rewrite E'. cbn [bind].
    destruct (IH m h' Hl H') as (rs & E & S). rewrite E. cbn [bind]. eexists. split; [reflexivity|constructor; exact S].
Qed.
Lemma key_rounds_ok key n : forall U T prf m0, length U = 64%nat -> hm_ok key m0 prf ->
  exists prf' m', key_rounds n prf U T =
    Ret (prf', fold_left (fun acc j => xor_bytes acc (Nat.iter j (hmac512 key) U)) (seq 1 n) T) /\ hm_ok key m' prf'.
Proof.
  induction n as [|n IH]; intros U T prf m0 LU Hp; cbn [key_rounds].
  - exists prf, m0. split; [reflexivity|exact Hp].
  - cbv zeta.
    destruct (hmac_Sum_ok key U (hmac_Write (hmac_Reset prf) U) []) as (h' & E & Hh').
    + rewrite LU. reflexivity.
    + apply (hmac_Write_ok key []). eapply hmac_Reset_ok. exact Hp.
    + rewrite E. cbn [bind app].
      destruct (IH (hmac512 key U) (xor_bytes T (hmac512 key U)) h' U) as (prf' & m' & E' & H');
        [apply hmac_length|exact Hh'|].
      exists prf', m'. split; [|exact H'].
      unfold xor_bytes in E' at 1. rewrite E'. f_equal. f_equal. cbn [seq fold_left].
      change (Nat.iter 1 (hmac512 key) U) with (hmac512 key U).
      rewrite <- (seq_shift n 1). generalize (xor_bytes T (hmac512 key U)) as acc. generalize (seq 1 n) as l.
      induction l as [|j l IHl]; intros acc; [reflexivity|]. cbn [map fold_left]. rewrite <- IHl. f_equal. f_equal.
      clear. induction j as [|j IHj]; [reflexivity|].
      change (hmac512 key (Nat.iter j (hmac512 key) (hmac512 key U)) = hmac512 key (Nat.iter (S j) (hmac512 key) U)).
      f_equal. exact IHj.
Qed.
Lemma U_iter_iter prf pw salt i n : U_iter prf pw salt i n = Nat.iter n (prf pw) (prf pw (salt ++ Z_be 4 i)).
Proof. induction n as [|n IH]; [reflexivity|]. cbn [U_iter]. rewrite IH. reflexivity. Qed.
Lemma F_block_iter prf pw salt c i : F_block prf pw salt c i =
  fold_left (fun acc j => xor_bytes acc (Nat.iter j (prf pw) (prf pw (salt ++ Z_be 4 i)))) (seq 1 (c - 1)) (prf pw (salt ++ Z_be 4 i)).
Proof.
  unfold F_block. cbn [U_iter]. generalize (prf pw (salt ++ Z_be 4 i)) at 1 3 as acc. generalize (seq 1 (c - 1)) as l.
  induction l as [|j l IH]; intros acc; [reflexivity|]. cbn [fold_left]. rewrite U_iter_iter. apply IH.
Qed.
Lemma xor_bytes_length a b : length (xor_bytes a b) = Nat.min (length a) (length b).
Proof. unfold xor_bytes. rewrite map_length. apply combine_length. Qed.
Lemma F_block_length pw salt c i : length (F_block hmac512 pw salt c i) = 64%nat.
Proof.
  rewrite F_block_iter. set (u := hmac512 pw (salt ++ Z_be 4 i)).
  assert (Hu : length u = 64%nat) by apply hmac_length.
  assert (Hj : forall j, length (Nat.iter j (hmac512 pw) u) = 64%nat).
  { intros [|j]; [exact Hu|]. apply hmac_length. }
  assert (G : forall l acc, length acc = 64%nat ->
    length (fold_left (fun acc j => xor_bytes acc (Nat.iter j (hmac512 pw) u)) l acc) = 64%nat).
  { induction l as [|j l IH]; intros acc La; [exact La|]. cbn [fold_left]. apply IH.
    rewrite xor_bytes_length, La, Hj. reflexivity. }
  apply G. exact Hu.
Qed.
Lemma counter_bytes b : [bZ (b / 2 ^ 24); bZ (b / 2 ^ 16); bZ (b / 2 ^ 8); bZ b] = Z_be 4 b.
Proof. cbn [Z_be app]. rewrite !Z.div_div by lia. reflexivity. Qed.
Lemma key_blocks_ok pw salt iter bs : Z.of_nat (length salt) < 2 ^ 61 - 132 ->
  forall prf m0 dk, hm_ok pw m0 prf ->
  key_blocks bs iter prf salt dk = Ret (dk ++ flat_map (fun i => F_block hmac512 pw salt iter (Z.of_nat i)) bs).
Proof.
  intros Hl. induction bs as [|b bs IH]; intros prf m0 dk Hp; cbn [key_blocks flat_map].
  - rewrite app_nil_r. reflexivity.
  - cbv zeta. rewrite counter_bytes.
    set (p := hmac_Write (hmac_Write (hmac_Reset prf) salt) (Z_be 4 (Z.of_nat b))).
    assert (H2 : hm_ok pw (salt ++ Z_be 4 (Z.of_nat b)) p).
    { unfold p. apply hmac_Write_ok. apply (hmac_Write_ok pw [] _ salt). eapply hmac_Reset_ok. exact Hp. }
    destruct (hmac_Sum_ok pw (salt ++ Z_be 4 (Z.of_nat b)) p dk ltac:(rewrite app_length, Z_be_length; lia) H2) as (h' & E & Hh').
    rewrite E. cbn [bind]. set (u := hmac512 pw (salt ++ Z_be 4 (Z.of_nat b))) in *.
    assert (Lu : length u = 64%nat) by apply hmac_length.
    rewrite app_length, Lu. replace (length dk + 64 - 64)%nat with (length dk) by lia.
    rewrite skipn_app, skipn_all, Nat.sub_diag. cbn [skipn app].
    rewrite firstn_app, firstn_all, Nat.sub_diag. cbn [firstn]. rewrite app_nil_r.
    destruct (key_rounds_ok pw (iter - 1) u u h' _ Lu Hh') as (prf' & m' & E' & H').
    rewrite E'. cbn [bind]. rewrite (IH prf' m') by exact H'. rewrite <- app_assoc. do 2 f_equal.
    rewrite F_block_iter. reflexivity.
Qed.
Theorem pbkdf2_Key_eq pw salt iter keyLen : Z.of_nat (length pw) < 2 ^ 61 -> Z.of_nat (length salt) < 2 ^ 61 - 132 ->
  pbkdf2_Key pw salt iter keyLen = Ret (PBKDF2 hmac512 64 pw salt iter keyLen).
Proof.
  intros Hp Hs. unfold pbkdf2_Key. destruct (hmac_New_ok pw Hp) as (h & E & Hh). rewrite E. cbn [bind].
  rewrite (key_blocks_ok pw salt iter _ Hs h [] [] Hh). reflexivity.
Qed.
(** Hash.v's loop works on words *)
Lemma flat_be_words k : forall b : bytes, length b = (8 * k)%nat -> flat_map (Z_be 8) (be_words 8 b) = b.
Proof.
  induction k as [|k IH]; intros b L.
  - destruct b; [reflexivity|simpl in L; lia].
  - unfold be_words. rewrite chunk_cons; [|lia|intros ->; simpl in L; lia]. cbn [map flat_map].
    rewrite Z_be_be_Z by (rewrite firstn_length; lia).
    change (map be_Z (chunk 8 (skipn 8 b))) with (be_words 8 (skipn 8 b)).
    rewrite IH by (rewrite skipn_length; lia). apply firstn_skipn.
Qed.
Lemma be_words_app k (a b : bytes) : length a = (8 * k)%nat -> be_words 8 (a ++ b) = be_words 8 a ++ be_words 8 b.
Proof. intros L. unfold be_words. rewrite (chunk_app 8 k) by lia. apply map_app. Qed.
(** For bip32/bip32.go:81, 190. *)
Definition word64 (x : Z) := 0 <= x < 2 ^ 64.
Lemma be_words_flat ws : Forall word64 ws -> be_words 8 (flat_map (Z_be 8) ws) = ws.
Proof.
  induction ws as [|w ws IH]; intros F; [reflexivity|]. inversion F; subst. cbn [flat_map].
  rewrite (be_words_app 1) by (rewrite Z_be_length; lia). rewrite IH by assumption.
  unfold be_words. rewrite chunk_one by (rewrite ?Z_be_length; lia). cbn [map app]. f_equal.
  rewrite be_Z_be. apply Z.mod_small. exact H1.
Qed.
Lemma map_land_word64 {X} (f : X -> Z) l : Forall word64 (map (fun p => Z.land (f p) M64) l).
Proof.
  apply Forall_forall. intros x Hx. apply in_map_iff in Hx. destruct Hx as (p & <- & _).
  change M64 with (Z.ones 64). rewrite Z.land_ones by lia. apply Z.mod_pos_bound. lia.
Qed.
Lemma compress2_word64 S0 S1 s0 s1 ks st b : length st = 8%nat -> Forall word64 (compress2 M64 S0 S1 s0 s1 ks st b).
Proof.
  intros L. unfold compress2. cbv zeta. generalize (rev (sched M64 s0 s1 (length ks - 16) (rev b))) as w. intros w.
  do 8 (destruct st as [|? st]; [discriminate L|]). destruct st; [|discriminate L].
  apply map_land_word64.
Qed.
Lemma c512_word64 st b : length st = 8%nat -> Forall word64 (c512 st b).
Proof. exact (compress2_word64 _ _ _ _ _ st b). Qed.
Lemma be_words_word64 b : Forall word64 (be_words 8 b).
Proof.
  unfold be_words, chunk. generalize (length b) as f. intros f. revert b.
  induction f as [|f IH]; intros b; [constructor|]. cbn [chunks]. destruct b as [|x b]; [constructor|]. cbn [map].
  constructor; [|apply IH]. unfold word64. pose proof (be_Z_range (firstn 8 (x :: b))) as R.
  assert (p256 (length (firstn 8 (x :: b))) <= 2 ^ 64); [|lia].
  unfold p256. change (2 ^ 64) with (256 ^ 8). apply Z.pow_le_mono_r; [lia|]. rewrite firstn_length. lia.
Qed.
Lemma from_64 st U : length U = 64%nat -> sha512_from st 128 U = c512 st (be_words 8 U ++ tail512).
Proof.
  intros L. unfold sha512_from, md_pad. cbv zeta. rewrite L.
  change (x80 :: repeat x00 (pad_zeros 128 16 64) ++ Z_be 16 (8 * Z.of_nat (128 + 64))) with
    (flat_map (Z_be 8) tail512).
  rewrite chunk_one; [|lia|rewrite app_length, L; reflexivity]. cbn [fold_left].
  rewrite (be_words_app 8) by exact L. reflexivity.
Qed.
Lemma hmac_words_eq i o u : length i = 8%nat -> length u = 8%nat -> Forall word64 u ->
  flat_map (Z_be 8) (hmac_words i o u) = hmac_with i o (flat_map (Z_be 8) u).
Proof.
  intros Li Lu Fu. unfold hmac_words, hmac_with.
  rewrite (from_64 i) by (rewrite (flat_length _ 8), Lu by (intros; apply Z_be_length); reflexivity).
  rewrite be_words_flat by exact Fu.
  rewrite (from_64 o).
  - rewrite be_words_flat by (apply c512_word64; exact Li). reflexivity.
  - rewrite (flat_length _ 8) by (intros; apply Z_be_length). rewrite c512_length by exact Li. reflexivity.
Qed.
Lemma combine_app' {X Y} (a c : list X) (b d : list Y) : length a = length b ->
  combine (a ++ c) (b ++ d) = combine a b ++ combine c d.
Proof.
  revert b; induction a as [|x a IH]; intros [|y b] L; try discriminate L; [reflexivity|].
  cbn [app combine]. f_equal. apply IH. now injection L.
Qed.
Lemma bZ_mod z : bZ (z mod 256) = bZ z.
Proof. apply Zb_inj. rewrite !Zb_bZ, Z.mod_mod; lia. Qed.
Lemma Z_be_xor n : forall x y, Z_be n (Z.lxor x y) = xor_bytes (Z_be n x) (Z_be n y).
Proof.
  induction n as [|n IH]; intros x y; [reflexivity|]. cbn [Z_be].
  unfold xor_bytes. rewrite combine_app' by (rewrite !Z_be_length; reflexivity).
  rewrite map_app. cbn [combine map fst snd]. f_equal.
  - change (map _ (combine (Z_be n (x / 256)) (Z_be n (y / 256)))) with (xor_bytes (Z_be n (x / 256)) (Z_be n (y / 256))).
    rewrite <- IH. f_equal. change 256 with (2 ^ 8). rewrite <- !Z.shiftr_div_pow2 by lia. apply Z.shiftr_lxor.
  - f_equal. apply Zb_inj. rewrite !Zb_bZ. change 256 with (2 ^ 8). rewrite <- !Z.land_ones by lia.
    apply Z.bits_inj'. intros i Hi. rewrite !Z.land_spec, !Z.lxor_spec, !Z.land_spec.
    destruct (Z.testbit (Z.ones 8) i); rewrite ?Bool.andb_true_r, ?Bool.andb_false_r; reflexivity.
Qed.
Lemma flat_xor a : forall b, length a = length b ->
  flat_map (Z_be 8) (map (fun p => Z.lxor (fst p) (snd p)) (combine a b)) = xor_bytes (flat_map (Z_be 8) a) (flat_map (Z_be 8) b).
Proof.
  induction a as [|x a IH]; intros [|y b] L; try discriminate L; [reflexivity|].
  cbn [combine map flat_map fst snd]. rewrite IH by now injection L. rewrite Z_be_xor. unfold xor_bytes.
  rewrite combine_app' by (rewrite !Z_be_length; reflexivity). rewrite map_app. reflexivity.
Qed.
Lemma hmac_words_word64 i o u : length o = 8%nat -> Forall word64 (hmac_words i o u).
Proof. intros L. apply c512_word64. exact L. Qed.
Lemma pbkdf2_loop_eq i o n : length i = 8%nat -> length o = 8%nat ->
  forall u acc, length u = 8%nat -> Forall word64 u -> length acc = 8%nat ->
  flat_map (Z_be 8) (pbkdf2_loop n i o u acc) =
    fold_left (fun a j => xor_bytes a (Nat.iter j (hmac_with i o) (flat_map (Z_be 8) u))) (seq 1 n) (flat_map (Z_be 8) acc).
Proof.
  intros Li Lo. induction n as [|n IH]; intros u acc Lu Fu La; [reflexivity|]. cbn [pbkdf2_loop]. cbv zeta.
  assert (Lw : length (hmac_words i o u) = 8%nat) by (apply hmac_words_length; exact Lo).
  rewrite IH; [|exact Lw|apply hmac_words_word64; exact Lo|rewrite map_length, combine_length, La, Lw; reflexivity].
  rewrite flat_xor by (rewrite La, Lw; reflexivity). rewrite hmac_words_eq by assumption.
  cbn [seq fold_left]. set (U := flat_map (Z_be 8) u). change (Nat.iter 1 (hmac_with i o) U) with (hmac_with i o U).
  rewrite <- (seq_shift n 1). generalize (xor_bytes (flat_map (Z_be 8) acc) (hmac_with i o U)) as x. generalize (seq 1 n) as l.
  induction l as [|j l IHl]; intros x; [reflexivity|]. cbn [map fold_left]. rewrite <- IHl. f_equal. f_equal.
  clear. induction j as [|j IHj]; [reflexivity|].
  change (hmac_with i o (Nat.iter j (hmac_with i o) (hmac_with i o U)) = hmac_with i o (Nat.iter (S j) (hmac_with i o) U)).
  f_equal. exact IHj.
Qed.
Lemma pbkdf2_iter_F n pw salt : pbkdf2_iter n pw salt = F_block hmac512 pw salt n 1.
Proof.
  unfold pbkdf2_iter. cbv zeta. set (i := hmac_mid pw 0x36). set (o := hmac_mid pw 0x5c).
  assert (Li : length i = 8%nat) by apply hmac_mid_length. assert (Lo : length o = 8%nat) by apply hmac_mid_length.
  assert (Lh : length (hmac_with i o (salt ++ Z_be 4 1)) = 64%nat) by apply (hmac_length pw).
  assert (Lb : length (be_words 8 (hmac_with i o (salt ++ Z_be 4 1))) = 8%nat).
  { unfold be_words, chunk. rewrite map_length, Lh. apply chunks_length; lia. }
  rewrite pbkdf2_loop_eq; [|exact Li|exact Lo|exact Lb|apply be_words_word64|exact Lb].
  rewrite !(flat_be_words 8) by exact Lh. rewrite F_block_iter. reflexivity.
Qed.
Theorem pbkdf2_PBKDF2 pw salt : pbkdf2 pw salt = PBKDF2 hmac512 64 pw salt 2048 64.
Proof.
  unfold pbkdf2, PBKDF2. change ((64 + 64 - 1) / 64)%nat with 1%nat. cbn [seq flat_map]. rewrite app_nil_r.
  rewrite firstn_all2 by (rewrite F_block_length; lia). apply pbkdf2_iter_F.
Qed.
Lemma PBKDF2_ext f g hl pw salt c dk : (forall k m, f k m = g k m) -> PBKDF2 f hl pw salt c dk = PBKDF2 g hl pw salt c dk.
Proof.
  intros E. unfold PBKDF2. f_equal. apply flat_map_ext. intros i.
  assert (EU : forall n, U_iter f pw salt (Z.of_nat i) n = U_iter g pw salt (Z.of_nat i) n).
  { induction n as [|n IH]; cbn [U_iter]; [apply E|]. rewrite IH. apply E. }
  unfold F_block. rewrite EU. generalize (U_iter g pw salt (Z.of_nat i) 0) as acc. generalize (seq 1 (c - 1)) as l.
  induction l as [|j l IH]; intros acc; [reflexivity|]. cbn [fold_left]. rewrite EU. apply IH.
Qed.

(** ** The sponge *)
(** For util/key_path.go:23-25. *)
Definition sp_holds (m : bytes) (d : sponge) : Prop :=
  exists k a, m = a ++ sp_buf d /\ length a = (k * 136)%nat /\
    sp_a d = fold_left keccak_absorb (chunk 136 a) (repeat 0 25) /\ (length (sp_buf d) < 136)%nat.
Lemma sp_write_ok fuel : forall d p m, sp_holds m d -> (length p <= fuel)%nat ->
  exists d', sp_write fuel d p = Ret d' /\ sp_holds (m ++ p) d'.
Proof.
  induction fuel as [|fuel IH]; intros d p m Hd Hf.
  - destruct p; [|simpl in Hf; lia]. exists d. rewrite app_nil_r. split; [reflexivity|exact Hd].
  - destruct p as [|b p]; [exists d; rewrite app_nil_r; split; [reflexivity|exact Hd]|].
    cbn [sp_write]. set (q := b :: p) in *. assert (Hq : (0 < length q)%nat) by (cbn; lia). clearbody q. clear b p.
    destruct Hd as (k & a & Hm & Ha & Hs & Hb).
    destruct (Nat.eqb_spec (length (sp_buf d)) 0) as [E0|E0]; [destruct (Nat.leb_spec 136 (length q)) as [E1|E1]|]; cbn [andb].
    + assert (Eb : sp_buf d = []) by (destruct (sp_buf d); [reflexivity|discriminate E0]). rewrite Eb in *.
      assert (Hd' : sp_holds (m ++ firstn 136 q) (mkSp (sp_permute (sp_a d) (firstn 136 q)) [])).
      { exists (S k), (a ++ firstn 136 q). cbn [sp_buf sp_a]. rewrite Hm, !app_nil_r. repeat split.
        - rewrite app_length, firstn_length_le by lia. lia.
        - rewrite (chunk_app 136 k) by lia. rewrite fold_left_app, (chunk_one 136 (firstn 136 q)) by (rewrite ?firstn_length_le; lia).
          cbn [fold_left]. rewrite <- Hs. reflexivity.
        - cbn; lia. }
      destruct (IH _ (skipn 136 q) _ Hd') as (d' & E & H'); [rewrite skipn_length; lia|].
      exists d'. split; [exact E|]. rewrite <- app_assoc, firstn_skipn in H'. exact H'.
    + cbv zeta. set (todo := Nat.min (136 - length (sp_buf d)) (length q)).
      destruct (Nat.eqb_spec (length (sp_buf d ++ firstn todo q)) 136) as [E2|E2].
      * rewrite app_length, firstn_length_le in E2 by lia. lia.
      * rewrite app_length, firstn_length_le in E2 by lia.
        assert (Hd' : sp_holds (m ++ firstn todo q) (mkSp (sp_a d) (sp_buf d ++ firstn todo q))).
        { exists k, a. cbn [sp_buf sp_a]. rewrite Hm, <- app_assoc. repeat split; [exact Ha|exact Hs|].
          rewrite app_length, firstn_length_le by lia. lia. }
        destruct (IH _ (skipn todo q) _ Hd') as (d' & E & H'); [rewrite skipn_length; lia|].
        exists d'. split; [exact E|]. rewrite <- app_assoc, firstn_skipn in H'. exact H'.
    + cbv zeta. set (todo := Nat.min (136 - length (sp_buf d)) (length q)).
      destruct (Nat.eqb_spec (length (sp_buf d ++ firstn todo q)) 136) as [E2|E2].
      * assert (Hd' : sp_holds (m ++ firstn todo q) (mkSp (sp_permute (sp_a d) (sp_buf d ++ firstn todo q)) [])).
        { exists (S k), (a ++ sp_buf d ++ firstn todo q). cbn [sp_buf sp_a]. rewrite Hm, app_nil_r, <- app_assoc. repeat split.
          - rewrite (app_length a), E2. lia.
          - rewrite (chunk_app 136 k) by lia. rewrite fold_left_app, (chunk_one 136 (sp_buf d ++ firstn todo q)) by (exact E2 || lia).
            cbn [fold_left]. rewrite <- Hs. reflexivity.
          - cbn; lia. }
        destruct (IH _ (skipn todo q) _ Hd') as (d' & E & H'); [rewrite skipn_length; lia|].
        exists d'. split; [exact E|]. rewrite <- app_assoc, firstn_skipn in H'. exact H'.
      * rewrite app_length, firstn_length_le in E2 by lia.
        assert (Hd' : sp_holds (m ++ firstn todo q) (mkSp (sp_a d) (sp_buf d ++ firstn todo q))).
        { exists k, a. cbn [sp_buf sp_a]. rewrite Hm, <- app_assoc. repeat split; [exact Ha|exact Hs|].
          rewrite app_length, firstn_length_le by lia. lia. }
        destruct (IH _ (skipn todo q) _ Hd') as (d' & E & H'); [rewrite skipn_length; lia|].
        exists d'. split; [exact E|]. rewrite <- app_assoc, firstn_skipn in H'. exact H'.
Qed.
Lemma sp_writes_ok ps : forall d m, sp_holds m d -> exists d', sp_writes d ps = Ret d' /\ sp_holds (m ++ concat ps) d'.
Proof.
  induction ps as [|p ps IH]; intros d m Hd; cbn [sp_writes concat].
  - exists d. rewrite app_nil_r. split; [reflexivity|exact Hd].
  - destruct (sp_write_ok (length p) d p m Hd (le_n _)) as (d1 & E1 & H1). rewrite E1. cbn [bind].
    destruct (IH d1 _ H1) as (d' & E & H'). exists d'. split; [exact E|]. rewrite app_assoc. exact H'.
Qed.
Lemma sp_sum_ok m d : sp_holds m d -> sp_sum d = keccak256 m.
Proof.
  intros (k & a & Hm & Ha & Hs & Hb). unfold sp_sum, keccak256. cbv zeta.
  set (buf := firstn 135 _ ++ _).
  assert (Hp : keccak_pad m = a ++ buf /\ length buf = 136%nat).
  { unfold keccak_pad. cbv zeta. rewrite Hm, app_length, Ha.
    rewrite (Nat.add_comm (k * 136)), Nat.mod_add, Nat.mod_small by lia.
    unfold buf. rewrite !app_length. cbn [length]. set (n := length (sp_buf d)) in *.
    destruct (136 - n)%nat as [|[|q]] eqn:En; [lia| |].
    - replace (136 - (n + 1))%nat with O by lia. cbn [repeat]. rewrite app_nil_r.
      rewrite firstn_app, (firstn_all2 (sp_buf d)) by (fold n; lia). fold n. replace (135 - n)%nat with O by lia.
      cbn [firstn]. rewrite app_nil_r. rewrite app_nth2 by (fold n; lia). fold n. replace (135 - n)%nat with O by lia.
      cbn [nth]. split; [rewrite <- app_assoc; reflexivity|fold n; lia].
    - replace (136 - (n + 1))%nat with (S q) by lia. replace (S (S q) - 2)%nat with q by lia.
      assert (Er : repeat x00 (S q) = repeat x00 q ++ [x00]).
      { clear. induction q as [|q IH]; [reflexivity|]. cbn [repeat app]. f_equal. exact IH. }
      rewrite Er, (app_assoc (sp_buf d ++ [x01]) (repeat x00 q) [x00]).
      assert (L1 : length ((sp_buf d ++ [x01]) ++ repeat x00 q) = 135%nat).
      { rewrite !app_length, repeat_length. cbn [length]. fold n. lia. }
      rewrite firstn_app, (firstn_all2 (_ ++ repeat x00 q)) by lia. rewrite L1, Nat.sub_diag. cbn [firstn].
      rewrite app_nil_r, app_nth2 by lia. rewrite L1, Nat.sub_diag. cbn [nth]. split.
      + rewrite <- !app_assoc. reflexivity.
      + lia. }
  destruct Hp as [-> Lb]. rewrite (chunk_app 136 k) by lia. rewrite fold_left_app, (chunk_one 136 buf) by lia.
  cbn [fold_left]. rewrite <- Hs. reflexivity.
Qed.
Theorem keccak256_writes ps : exists d, sp_writes sp_new ps = Ret d /\ sp_sum d = keccak256 (concat ps).
Proof.
  destruct (sp_writes_ok ps sp_new []) as (d & E & H').
  - exists O, []. cbn. repeat split; lia.
  - exists d. split; [exact E|]. apply sp_sum_ok. exact H'.
Qed.
