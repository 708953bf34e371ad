(** Cert130.v - the point 130.G, whose y coordinate is below 2^248, by a chain of seven doublings and one
    addition with certified slopes. *)
From Verif Require Import Base BaseFacts Secp SecpPrime Fp ECGroup SpecEC SecpGroup SecpOrder.

(** In proofs; for bip32/utils.go:16-19, 64. *)
Definition s130_0 : Z := 0xcb35b28428101a303eb9d1235992ac63f58857c2f631ee6936d3aebbeddcd1b1.
(** In proofs; for bip32/utils.go:16-19, 64. *)
Definition s130_1 : Z := 0x6ad2cb95963c033328d4857d4f8711deff557dd9faaa673b400442833f0efb64.
(** In proofs; for bip32/utils.go:16-19, 64. *)
Definition s130_2 : Z := 0x9693023fb325cc6c7bc993eb684358ea623d5feea8ff351df662beabd0efdc6d.
(** In proofs; for bip32/utils.go:16-19, 64. *)
Definition s130_3 : Z := 0xbc380350880ab969e653d334691ca8c2da83b2acde59e7439ed92d96a9654a07.
(** In proofs; for bip32/utils.go:16-19, 64. *)
Definition s130_4 : Z := 0xb68c9cb56c4f0fd3279f2dec6acae3ffbacfb8384548d24892d676cd6beacbf5.
(** In proofs; for bip32/utils.go:16-19, 64. *)
Definition s130_5 : Z := 0x57aaae4151a198790e40eb37fe0dad5ed4d4581b1a82c40124b58ac767ed1ec4.
(** In proofs; for bip32/utils.go:16-19, 64. *)
Definition s130_6 : Z := 0x875978642d00b859133774fec1878f9e7623f6df9c734f7ed297e920a77b4406.
(** In proofs; for bip32/utils.go:16-19, 64. *)
Definition s130_a : Z := 0x64c12b431a0ff701dad4dffbb86c8fe108eea88d87ea420d42d188dde6f034ca.
(** In proofs; for bip32/utils.go:16-19, 64. *)
Definition x130 : Z := 0x9dda94404337db1474e67f1d7052f398a0e70ed205c5e94d6e731b06c6f51cd8.
(** In proofs; for bip32/utils.go:16-19, 64. *)
Definition y130 : Z := 0x65a58128f755afae6fae38ed6d2ec4306a0a11fdd22b0d7d5fa49229d31669.

Lemma dbl_step l P k : 0 <= k -> canon P -> apF P = kG k -> dbl_ok l P = true -> apF (line l P P) = kG (k + k).
Proof. intros Hk HC E D. rewrite (dbl_sound l P HC D), E. symmetry. apply smul_add; [exact Hk|exact Hk|apply pG_on]. Qed.
Lemma add_step l P Q j k : 0 <= j -> 0 <= k -> canon P -> canon Q -> apF P = kG j -> apF Q = kG k -> add_ok l P Q = true -> apF (line l P Q) = kG (j + k).
Proof. intros Hj Hk HP HQ EP EQ D. rewrite (add_sound l P Q HP HQ D), EP, EQ. symmetry. apply smul_add; [exact Hj|exact Hk|apply pG_on]. Qed.
(** In proofs; for bip32/utils.go:16-19, 64. *)
Fixpoint dbls (ls : list Z) (P : apt) : option apt :=
  match ls with [] => Some P | l :: r => if dbl_ok l P then dbls r (line l P P) else None end.
Lemma dbls_sound ls : forall P Q k, 0 <= k -> canon P -> apF P = kG k -> dbls ls P = Some Q -> canon Q /\ apF Q = kG (k * 2 ^ Z.of_nat (length ls)).
Proof.
  induction ls as [|l r IH]; intros P Q k Hk HC E D; cbn [dbls] in D.
  - assert (P = Q) as <- by congruence. split; [exact HC|]. rewrite Z.mul_1_r. exact E.
  - destruct (dbl_ok l P) eqn:O; [|discriminate]. destruct (IH _ Q (k + k) ltac:(lia) (line_canon l P P) (dbl_step l P k Hk HC E O) D) as [A C]. split; [exact A|].
    rewrite C. f_equal. cbn [length]. rewrite Nat2Z.inj_succ, Z.pow_succ_r by lia. lia.
Qed.
(** In proofs; for bip32/utils.go:16-19, 64. *)
Definition cert130 : bool :=
  match dbls [s130_0] (secp_Gx, secp_Gy) with
  | Some P2 => match dbls [s130_1; s130_2; s130_3; s130_4; s130_5; s130_6] P2 with
               | Some P128 => let R := line s130_a P2 P128 in add_ok s130_a P2 P128 && (fst R =? x130) && (snd R =? y130)
               | None => false
               end
  | None => false
  end.
Lemma cert130_ok : cert130 = true.
Proof. vm_compute. reflexivity. Qed.
Theorem kG_130 : kG 130 = PAff (toF x130) (toF y130).
Proof.
  pose proof cert130_ok as C. unfold cert130 in C.
  destruct (dbls [s130_0] (secp_Gx, secp_Gy)) as [P2|] eqn:E2; [|discriminate]. destruct (dbls _ P2) as [P128|] eqn:E3; [|discriminate]. cbv zeta in C.
  apply andb_true_iff in C as [C Cy]. apply andb_true_iff in C as [C Cx]. apply Z.eqb_eq in Cx, Cy.
  destruct (dbls_sound _ _ _ 1 ltac:(lia) G_canon G_apF E2) as [A2 B2]. destruct (dbls_sound _ _ _ (1 * 2 ^ Z.of_nat (length [s130_0])) ltac:(cbn; lia) A2 B2 E3) as [A3 B3].
  assert (B2' : apF P2 = kG 2) by exact B2. assert (B3' : apF P128 = kG 128) by exact B3. clear B2 B3 E2 E3.
  change 130 with (2 + 128). rewrite <- (add_step s130_a P2 P128 2 128 ltac:(lia) ltac:(lia) A2 A3 B2' B3' C). unfold apF. rewrite Cx, Cy. reflexivity.
Qed.
