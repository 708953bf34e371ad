(** GoNatBytes.v - bytes to numbers of math/big and back. *)
From Verif Require Import Base BaseFacts Bip32 GoCodec GoNat SpecNat GoNatFacts GoNatOps.

Lemma p256_8 : p256 8 = BW. Proof. reflexivity. Qed.
Lemma setBytes_loop_ok : forall fuel b, (length b <= fuel)%nat -> val (setBytes_loop fuel b) = be_Z (rev b) /\ words (setBytes_loop fuel b) /\ length (setBytes_loop fuel b) = ((length b + 7) / 8)%nat.
Proof.
  induction fuel as [|fuel IH]; intros b H.
  - destruct b; [|cbn [length] in H; lia]. cbn [setBytes_loop rev val]. rewrite be_Z_nil. repeat split. exact words_nil.
  - cbn [setBytes_loop]. destruct b as [|b0 b]; [cbn [rev val]; rewrite be_Z_nil; repeat split; exact words_nil|].
    assert (L : (length (skipn 8 (b0 :: b)) <= fuel)%nat) by (rewrite skipn_length; cbn [length] in *; lia). destruct (IH _ L) as (A & B & C).
    set (l := b0 :: b) in *. assert (Ll : (1 <= length l)%nat) by (subst l; cbn [length]; lia). clearbody l.
    assert (Ef : length (firstn 8 l) = Nat.min 8 (length l)) by apply firstn_length.
    split; [|split].
    + rewrite val_cons, A. replace (rev l) with (rev (skipn 8 l) ++ rev (firstn 8 l)) by (rewrite <- rev_app_distr, firstn_skipn; reflexivity). rewrite be_Z_app, rev_length, Ef.
      destruct (Nat.le_gt_cases 8 (length l)) as [G|G].
      * rewrite Nat.min_l by lia. rewrite p256_8. ring.
      * rewrite (skipn_all2 l) by lia. cbn [rev]. rewrite be_Z_nil. ring.
    + apply words_cons. split; [|exact B]. pose proof (be_Z_range (rev (firstn 8 l))) as R. rewrite rev_length, Ef in R. pose proof (p256_mono (Nat.min 8 (length l)) 8 ltac:(lia)) as M. rewrite p256_8 in M. lia.
    + cbn [length]. rewrite C, skipn_length. destruct (Nat.le_gt_cases 8 (length l)) as [G|G].
      * replace (length l + 7)%nat with ((length l - 8 + 7) + 1 * 8)%nat by lia. rewrite Nat.div_add by lia. lia.
      * replace (length l - 8)%nat with 0%nat by lia. change ((0 + 7) / 8)%nat with 0%nat. replace (length l + 7)%nat with ((length l - 1) + 1 * 8)%nat by lia. rewrite Nat.div_add by lia. rewrite Nat.div_small by lia. reflexivity.
Qed.
Lemma setBytes_ok : forall b, stands (setBytes b) (be_Z b).
Proof. intros b. unfold setBytes. destruct (setBytes_loop_ok (length b) (rev b)) as (A & B & _); [rewrite rev_length; lia|]. rewrite rev_involutive in A. apply norm_stands; assumption. Qed.
Lemma setBytes_len : forall b, (length (setBytes b) <= (length b + 7) / 8)%nat.
Proof.
  intros b. destruct (setBytes_loop_ok (length b) (rev b)) as (A & B & C); [rewrite rev_length; lia|]. rewrite rev_length in C. rewrite <- C. apply stands_len; [exact B|]. rewrite A, rev_involutive. apply setBytes_ok.
Qed.

Lemma skip0_ok : forall l, skip0 l = Z_bytes (be_Z l).
Proof.
  induction l as [|b l IH]; [reflexivity|]. destruct (Byte.eqb b x00) eqn:E.
  - apply Byte.byte_dec_bl in E. subst b. cbn [skip0]. rewrite IH. rewrite be_Z_cons. reflexivity.
  - assert (N : Zb b <> 0). { intro H. apply (f_equal bZ) in H. rewrite bZ_Zb in H. change (bZ 0) with x00 in H. subst b. discriminate. }
    replace (skip0 (b :: l)) with (b :: l) by (destruct b; reflexivity || (cbn in E; discriminate)).
    pose proof (be_Z_range (b :: l)) as R. pose proof (be_Z_range l) as Rl. pose proof (Zb_range b) as Rb. pose proof (p256_pos (length l)) as P. cbn [length] in R.
    rewrite (Z_bytes_full _ (length l)).
    + apply be_Z_inj; [rewrite Z_be_length; reflexivity|]. rewrite be_Z_be, Z.mod_small by exact R. reflexivity.
    + split; [|lia]. rewrite be_Z_cons. nia.
Qed.
Lemma word_bytes_ok : forall n d, 0 <= d -> be_Z (rev (word_bytes n d)) = d mod p256 n /\ length (word_bytes n d) = n.
Proof.
  induction n as [|n IH]; intros d H.
  - cbn [word_bytes rev length]. rewrite be_Z_nil, p256_0, Z.mod_1_r. split; reflexivity.
  - cbn [word_bytes rev length]. destruct (IH (Z.shiftr d 8)) as [A B]; [rewrite Z.shiftr_div_pow2 by lia; apply Z.div_pos; lia|]. rewrite be_Z_snoc, A, B. split; [|reflexivity].
    rewrite Zb_bZ, Z.shiftr_div_pow2 by lia. change (2 ^ 8) with 256. rewrite p256_S. pose proof (p256_pos n). rewrite (Z.rem_mul_r d 256 (p256 n)) by lia. lia.
Qed.
Lemma words_bytes_ok : forall x, words x -> be_Z (rev (concat (map (word_bytes 8) x))) = val x.
Proof.
  induction x as [|w x IH]; intro W; [reflexivity|]. destruct (proj1 (words_cons _ _) W) as [Hw Wx]. cbn [map concat]. rewrite rev_app_distr, be_Z_app, rev_length. destruct (word_bytes_ok 8 w ltac:(lia)) as [A B].
  rewrite A, B, (IH Wx), p256_8, Z.mod_small, val_cons by exact Hw. ring.
Qed.
Lemma natBytes_ok : forall x a, stands x a -> natBytes x = Z_bytes a.
Proof. intros x a (W & _ & V). unfold natBytes. rewrite skip0_ok, words_bytes_ok, V by exact W. reflexivity. Qed.
