(** HexFacts.v - encoding/hex. *)
From Verif Require Import Base BaseFacts GoStr.
From Coq Require Import ZifyBool ZifyNat ZifyN.

Lemma HexEncode_length s : length (HexEncode s) = (2 * length s)%nat.
Proof. induction s as [|b s IH]; [reflexivity|]. cbn [HexEncode flat_map]. cbn [app length]. fold (HexEncode s). lia. Qed.
Lemma hexdigit_inj_all : forallb (fun n => forallb (fun m => Z.eqb n m || negb (Byte.eqb (hexdigit n) (hexdigit m)))
  (map Z.of_nat (seq 0 16))) (map Z.of_nat (seq 0 16)) = true.
Proof. reflexivity. Qed.
Lemma hexdigit_inj n m : 0 <= n < 16 -> 0 <= m < 16 -> hexdigit n = hexdigit m -> n = m.
Proof.
  intros Hn Hm E. pose proof hexdigit_inj_all as A. rewrite forallb_forall in A.
  assert (I : forall k, 0 <= k < 16 -> In k (map Z.of_nat (seq 0 16))).
  { intros k Hk. apply in_map_iff. exists (Z.to_nat k). split; [lia|]. apply in_seq. lia. }
  specialize (A n (I n Hn)). rewrite forallb_forall in A. specialize (A m (I m Hm)).
  apply orb_true_iff in A as [A|A]; [lia|]. rewrite E, byte_eqb_refl in A. discriminate.
Qed.
Lemma HexEncode_inj s t : HexEncode s = HexEncode t -> s = t.
Proof.
  revert t; induction s as [|b s IH]; intros [|c t] E; try reflexivity; try discriminate.
  cbn [HexEncode flat_map app] in E. injection E as E1 E2 E3.
  pose proof (Zb_range b). pose proof (Zb_range c).
  apply hexdigit_inj in E1; [|split; [apply Z.div_pos|apply Z.div_lt_upper_bound]; lia..].
  apply hexdigit_inj in E2; [|apply Z.mod_pos_bound; lia..].
  f_equal; [|apply IH; exact E3]. apply Zb_inj. rewrite (Z.div_mod (Zb b) 16), (Z.div_mod (Zb c) 16) by lia. congruence.
Qed.

(** In proofs; for bip32/reg_ver_bytes.go:92. *)
Definition hexrt_chk (n : Z) : bool := match hexval (hexdigit n) with Some m => m =? n | None => false end.
Lemma hexrt_all : forallb (fun n => hexrt_chk (Z.of_nat n)) (seq 0 16) = true.
Proof. reflexivity. Qed.
Lemma hexval_digit n : 0 <= n < 16 -> hexval (hexdigit n) = Some n.
Proof.
  intros Hn. pose proof (proj1 (forallb_forall _ _) hexrt_all (Z.to_nat n)) as A. rewrite in_seq in A.
  specialize (A ltac:(lia)). rewrite Z2Nat.id in A by lia. unfold hexrt_chk in A.
  destruct (hexval (hexdigit n)); [|discriminate]. apply Z.eqb_eq in A. subst. reflexivity.
Qed.
Lemma HexDecode_Encode s : HexDecode (HexEncode s) = Some s.
Proof.
  induction s as [|b s IH]; [reflexivity|]. cbn [HexEncode flat_map app HexDecode].
  fold (HexEncode s). pose proof (Zb_range b).
  rewrite !hexval_digit, IH; [|apply Z.mod_pos_bound; lia|split; [apply Z.div_pos|apply Z.div_lt_upper_bound]; lia].
  f_equal. f_equal. rewrite Z.mul_comm, <- Z.div_mod by lia. apply bZ_Zb.
Qed.
(** A text that decodes has two digits per byte. *)
Lemma HexDecode_length s : forall b, HexDecode s = Some b -> length s = (2 * length b)%nat.
Proof.
  assert (G : forall n s, (length s <= n)%nat -> forall b, HexDecode s = Some b -> length s = (2 * length b)%nat).
  { induction n as [|n IH]; intros t Hn b E.
    - destruct t; [|cbn in Hn; lia]. injection E as <-. reflexivity.
    - destruct t as [|x [|y t]]; [injection E as <-; reflexivity|discriminate|]. cbn [HexDecode] in E.
      destruct (hexval x), (hexval y); try discriminate. destruct (HexDecode t) eqn:Et; [|discriminate].
      injection E as <-. cbn [length] in *. rewrite (IH t ltac:(lia) _ Et). lia. }
  exact (G (length s) s (Nat.le_refl _)).
Qed.
