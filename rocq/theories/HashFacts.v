(** HashFacts.v - the executable hash functions have the output lengths the theorems assume. *)
From Verif Require Import Base BaseFacts Prims Hash.

Lemma rnds_length m S0 S1 ws : forall ks a b c d e f g h, length (rnds m S0 S1 ws ks a b c d e f g h) = 8%nat.
Proof.
  induction ws as [|w ws IH]; intros ks a b c d e f g h; [reflexivity|].
  destruct ks as [|k ks]; [reflexivity|]. cbn [rnds]. apply IH.
Qed.
Lemma compress2_length m S0 S1 s0 s1 ks st blk : length st = 8%nat ->
  length (compress2 m S0 S1 s0 s1 ks st blk) = 8%nat.
Proof.
  intros L. do 8 (destruct st as [|? st]; [discriminate L|]). destruct st; [|discriminate L].
  cbn [compress2]. rewrite map_length, combine_length, rnds_length. reflexivity.
Qed.
Lemma fold_length {A B} (f : list A -> B -> list A) n l st :
  (forall s b, length s = n -> length (f s b) = n) -> length st = n -> length (fold_left f l st) = n.
Proof. intros Hf. revert st; induction l as [|b l IH]; intros st L; [exact L|]. cbn [fold_left]. apply IH, Hf, L. Qed.
Lemma flat_length {A} (f : A -> bytes) n l : (forall x, length (f x) = n) -> length (flat_map f l) = (n * length l)%nat.
Proof.
  intros Hf. induction l as [|x l IH]; [simpl; lia|]. cbn [flat_map]. rewrite app_length, Hf, IH. simpl length. lia.
Qed.
Lemma sha256_length m : length (sha256 m) = 32%nat.
Proof.
  unfold sha256. rewrite (flat_length _ 4) by (intros; apply Z_be_length).
  rewrite (fold_length _ 8); [reflexivity| |reflexivity]. intros s b L. apply compress2_length. exact L.
Qed.
Lemma c512_length st blk : length st = 8%nat -> length (c512 st blk) = 8%nat.
Proof. intros L. unfold c512. apply compress2_length. exact L. Qed.
Lemma sha512_from_length st n m : length st = 8%nat -> length (sha512_from st n m) = 8%nat.
Proof. intros L. unfold sha512_from. apply fold_length; [|exact L]. intros s b Ls. apply compress2_length. exact Ls. Qed.
Lemma hmac_mid_length k p : length (hmac_mid k p) = 8%nat.
Proof. apply compress2_length. reflexivity. Qed.
Lemma hmac_length k m : length (hmac512 k m) = 64%nat.
Proof.
  unfold hmac512, hmac_with. rewrite (flat_length _ 8) by (intros; apply Z_be_length).
  rewrite sha512_from_length by apply hmac_mid_length. reflexivity.
Qed.
Lemma ripemd_length m : length (ripemd160 m) = 20%nat.
Proof.
  unfold ripemd160. rewrite (flat_length _ 4) by (intros; rewrite rev_length; apply Z_be_length).
  rewrite (fold_length _ 5); [reflexivity| |reflexivity]. intros s b L.
  do 5 (destruct s as [|? s]; [discriminate L|]). destruct s; [|discriminate L].
  unfold rmd_compress. destruct (rmd_line rmd_left _ _ _ _ _ _) as [[[[? ?] ?] ?] ?].
  destruct (rmd_line rmd_right _ _ _ _ _ _) as [[[[? ?] ?] ?] ?]. reflexivity.
Qed.
Lemma keccak_round_length rc a : length (keccak_round rc a) = 25%nat.
Proof.
  unfold keccak_round. cbv zeta.
  match goal with |- context [map ?f (seq 0 25)] => set (chi := f) end. reflexivity.
Qed.
Lemma keccak_fold_length l a : l <> [] -> length (fold_left (fun a rc => keccak_round rc a) l a) = 25%nat.
Proof.
  revert a; induction l as [|rc l IH]; intros a H; [now elim H|]. cbn [fold_left].
  destruct l as [|rc' l]; [apply keccak_round_length|]. apply IH. discriminate.
Qed.
Lemma keccak_length m : length (keccak256 m) = 32%nat.
Proof.
  unfold keccak256. rewrite firstn_length, (flat_length _ 8) by (intros; rewrite rev_length; apply Z_be_length).
  rewrite (fold_length _ 25); [reflexivity| |reflexivity]. intros s b L.
  unfold keccak_absorb, keccak_f. apply keccak_fold_length. discriminate.
Qed.
Lemma hmac_words_length i o u : length o = 8%nat -> length (hmac_words i o u) = 8%nat.
Proof. intros L. unfold hmac_words. apply c512_length. exact L. Qed.
Lemma pbkdf2_loop_length n : forall i o u acc, length o = 8%nat -> length acc = 8%nat ->
  length (pbkdf2_loop n i o u acc) = 8%nat.
Proof.
  induction n as [|n IH]; intros i o u acc Lo La; [exact La|]. cbn [pbkdf2_loop]. apply IH; [exact Lo|].
  rewrite map_length, combine_length, La, hmac_words_length by exact Lo. reflexivity.
Qed.
Lemma chunks_length n k : forall f (l : bytes), (0 < n)%nat -> length l = (n * k)%nat -> (k <= f)%nat -> length (chunks f n l) = k.
Proof.
  induction k as [|k IH]; intros f l Hn L Hf.
  - destruct l; [|simpl in L; lia]. destruct f; reflexivity.
  - destruct f as [|f]; [lia|]. destruct l as [|b l]; [simpl in L; lia|]. cbn [chunks length].
    rewrite (IH f); [reflexivity|exact Hn| |lia]. rewrite skipn_length, L. lia.
Qed.
Lemma pbkdf2_length pw salt : length (pbkdf2 pw salt) = 64%nat.
Proof.
  unfold pbkdf2, pbkdf2_iter. cbv zeta. rewrite (flat_length _ 8) by (intros; apply Z_be_length).
  rewrite pbkdf2_loop_length; [reflexivity|apply hmac_mid_length|].
  unfold be_words, chunk. rewrite map_length.
  set (x := hmac_with _ _ _).
  assert (L : length x = 64%nat).
  { unfold x, hmac_with. rewrite (flat_length _ 8) by (intros; apply Z_be_length).
    rewrite sha512_from_length by apply hmac_mid_length. reflexivity. }
  rewrite L. apply chunks_length; lia.
Qed.
Theorem real_prims_ok : prims_ok RealPrims.
Proof.
  repeat split; cbn [p_sha256 p_ripemd160 p_hmac512 p_keccak256 p_pbkdf2 RealPrims]; intros.
  - apply sha256_length.
  - apply ripemd_length.
  - apply hmac_length.
  - apply keccak_length.
  - apply pbkdf2_length.
Qed.
