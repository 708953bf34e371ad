(** BaseFacts.v - facts about Base.v. *)
From Verif Require Import Base.
From Coq Require Import ZifyBool ZifyNat ZifyN.
Ltac Zify.zify_post_hook ::= Z.div_mod_to_equations.

Lemma Zb_range b : 0 <= Zb b < 256.
Proof. unfold Zb. pose proof (Byte.to_N_bounded b). lia. Qed.

Lemma Zb_bZ z : Zb (bZ z) = z mod 256.
Proof.
  unfold Zb, bZ. destruct (Byte.of_N _) as [b|] eqn:E.
  - apply Byte.to_of_N in E. rewrite E. lia.
  - apply Byte.of_N_None_iff in E. lia.
Qed.

Lemma bZ_Zb b : bZ (Zb b) = b.
Proof.
  unfold bZ. rewrite Z.mod_small by apply Zb_range. unfold Zb.
  rewrite N2Z.id, Byte.of_to_N. reflexivity.
Qed.

Lemma Zb_inj a b : Zb a = Zb b -> a = b.
Proof. intros H. rewrite <- (bZ_Zb a), <- (bZ_Zb b), H. reflexivity. Qed.

Lemma bZ_mod z : bZ (z mod 256) = bZ z.
Proof. apply Zb_inj. rewrite !Zb_bZ. lia. Qed.

Lemma byte_eqb_spec a b : Byte.eqb a b = true <-> a = b.
Proof.
  split; intros H.
  - apply Byte.byte_dec_bl; exact H.
  - apply Byte.byte_dec_lb; exact H.
Qed.
Lemma byte_eqb_refl a : Byte.eqb a a = true.
Proof. apply byte_eqb_spec; reflexivity. Qed.
Lemma byte_eqb_neq a b : Byte.eqb a b = false <-> a <> b.
Proof. rewrite <- byte_eqb_spec. destruct (Byte.eqb a b); split; congruence. Qed.

Lemma bytes_eqb_spec a b : bytes_eqb a b = true <-> a = b.
Proof.
  revert b; induction a as [|x a IH]; intros [|y b]; simpl; split; try congruence.
  - intros H. apply andb_true_iff in H as [H1 H2]. apply byte_eqb_spec in H1.
    apply IH in H2. congruence.
  - intros H. inversion H; subst. rewrite byte_eqb_refl. apply IH. reflexivity.
Qed.
Lemma bytes_eqb_refl a : bytes_eqb a a = true.
Proof. apply bytes_eqb_spec; reflexivity. Qed.
Lemma bytes_eqb_neq a b : bytes_eqb a b = false <-> a <> b.
Proof. rewrite <- bytes_eqb_spec. destruct (bytes_eqb a b); split; congruence. Qed.
(** In proofs; for bip32/bip32.go:81. *)
Definition bytes_eq_dec (a b : bytes) : {a = b} + {a <> b}.
Proof. destruct (bytes_eqb a b) eqn:E; [left; apply bytes_eqb_spec|right; apply bytes_eqb_neq]; exact E. Defined.

(** ** Powers of 256 *)
(** In proofs; for bip32/bip32.go:81. *)
Definition p256 (n : nat) : Z := 256 ^ Z.of_nat n.
Lemma p256_S n : p256 (S n) = 256 * p256 n.
Proof. unfold p256. rewrite Nat2Z.inj_succ, Z.pow_succ_r by lia. reflexivity. Qed.
Lemma p256_0 : p256 0 = 1. Proof. reflexivity. Qed.
Lemma p256_pos n : 0 < p256 n.
Proof. unfold p256. apply Z.pow_pos_nonneg; lia. Qed.
Lemma p256_add a b : p256 (a + b) = p256 a * p256 b.
Proof. unfold p256. rewrite Nat2Z.inj_add, Z.pow_add_r by lia. reflexivity. Qed.
Lemma p256_mono a b : (a <= b)%nat -> p256 a <= p256 b.
Proof. intros H. unfold p256. apply Z.pow_le_mono_r; lia. Qed.
Lemma p256_pow2 n : p256 n = 2 ^ (8 * Z.of_nat n).
Proof. unfold p256. rewrite Z.pow_mul_r by lia. reflexivity. Qed.

(** ** be_Z *)
Lemma be_Z_nil : be_Z [] = 0. Proof. reflexivity. Qed.
Lemma be_Z_snoc l b : be_Z (l ++ [b]) = be_Z l * 256 + Zb b.
Proof. unfold be_Z. rewrite fold_left_app. reflexivity. Qed.
Lemma be_Z_app a b : be_Z (a ++ b) = be_Z a * p256 (length b) + be_Z b.
Proof.
  induction b as [|x b IH] using rev_ind.
  - rewrite app_nil_r. change (length (@nil byte)) with O. rewrite p256_0, be_Z_nil. lia.
  - rewrite app_assoc, !be_Z_snoc, IH, app_length. cbn [length].
    rewrite Nat.add_1_r, p256_S. lia.
Qed.
Lemma be_Z_cons x l : be_Z (x :: l) = Zb x * p256 (length l) + be_Z l.
Proof.
  change (x :: l) with ([x] ++ l). rewrite be_Z_app. unfold be_Z at 1. simpl. lia.
Qed.
Lemma be_Z_range l : 0 <= be_Z l < p256 (length l).
Proof.
  induction l as [|x l IH] using rev_ind.
  - change (length (@nil byte)) with O. rewrite p256_0, be_Z_nil. lia.
  - rewrite be_Z_snoc, app_length. cbn [length]. rewrite Nat.add_1_r, p256_S.
    pose proof (Zb_range x). lia.
Qed.
Lemma be_Z_inj a b : length a = length b -> be_Z a = be_Z b -> a = b.
Proof.
  revert b; induction a as [|x a IH] using rev_ind; intros b Hl He.
  - destruct b; [reflexivity|discriminate].
  - destruct b as [|y b _] using rev_ind.
    + rewrite app_length in Hl. simpl in Hl. lia.
    + rewrite !app_length in Hl. simpl in Hl. rewrite !be_Z_snoc in He.
      pose proof (Zb_range x). pose proof (Zb_range y).
      f_equal; [apply IH; lia|]. f_equal. apply Zb_inj. lia.
Qed.

(** ** Z_be *)
Lemma Z_be_length n z : length (Z_be n z) = n.
Proof. revert z; induction n; intros z; simpl; [reflexivity|]. rewrite app_length, IHn. simpl. lia. Qed.
Lemma be_Z_be n z : be_Z (Z_be n z) = z mod p256 n.
Proof.
  revert z; induction n as [|n IH]; intros z; cbn [Z_be].
  - rewrite p256_0, Z.mod_1_r. reflexivity.
  - rewrite be_Z_snoc, IH, Zb_bZ, p256_S. pose proof (p256_pos n).
    rewrite (Z.rem_mul_r z 256 (p256 n)) by lia. lia.
Qed.
Lemma Z_be_be_Z l n : length l = n -> Z_be n (be_Z l) = l.
Proof.
  intros H. apply be_Z_inj.
  - rewrite Z_be_length. symmetry; exact H.
  - rewrite be_Z_be, Z.mod_small; [reflexivity|]. rewrite <- H. apply be_Z_range.
Qed.
Lemma Z_be_mod n z : Z_be n (z mod p256 n) = Z_be n z.
Proof.
  apply be_Z_inj; [now rewrite !Z_be_length|]. rewrite !be_Z_be.
  apply Z.mod_mod. pose proof (p256_pos n); lia.
Qed.
Lemma Z_be_app m n z : Z_be (m + n) z = Z_be m (z / p256 n) ++ Z_be n z.
Proof.
  revert z; induction n as [|n IH]; intros z.
  - rewrite Nat.add_0_r, p256_0, Z.div_1_r. simpl. now rewrite app_nil_r.
  - replace (m + S n)%nat with (S (m + n)) by lia. cbn [Z_be]. rewrite IH, <- app_assoc.
    rewrite p256_S. pose proof (p256_pos n). rewrite Z.div_div by lia. reflexivity.
Qed.
Lemma Z_be_zero n : Z_be n 0 = repeat x00 n.
Proof.
  apply be_Z_inj.
  - now rewrite Z_be_length, repeat_length.
  - rewrite be_Z_be. induction n; [reflexivity|]. simpl. rewrite be_Z_cons.
    rewrite Z.mod_0_l by (pose proof (p256_pos (S n)); lia).
    rewrite Z.mod_0_l in IHn by (pose proof (p256_pos n); lia).
    rewrite <- IHn. reflexivity.
Qed.
Lemma be_Z_zeros n l : be_Z (repeat x00 n ++ l) = be_Z l.
Proof.
  rewrite be_Z_app, <- Z_be_zero, be_Z_be, Z.mod_0_l; [lia|]. pose proof (p256_pos n); lia.
Qed.

(** ** Z_bytes *)
Lemma nbytes_bounds z : 0 < z -> p256 (pred (nbytes z)) <= z < p256 (nbytes z).
Proof.
  intros Hz. unfold nbytes. destruct (Z.leb_spec z 0) as [H|H]; [lia|].
  rewrite Nat.pred_succ, !p256_pow2.
  pose proof (Z.log2_spec z Hz) as [L1 L2]. pose proof (Z.log2_nonneg z) as L0.
  rewrite Nat2Z.inj_succ, Z2Nat.id by (apply Z.div_pos; lia).
  split.
  - apply Z.le_trans with (2 ^ Z.log2 z); [|lia]. apply Z.pow_le_mono_r; lia.
  - apply Z.lt_le_trans with (2 ^ Z.succ (Z.log2 z)); [lia|]. apply Z.pow_le_mono_r; lia.
Qed.
Lemma nbytes_lt z : 0 <= z -> z < p256 (nbytes z).
Proof.
  intros H. destruct (Z.eq_dec z 0) as [->|Hz]; [reflexivity|]. apply nbytes_bounds; lia.
Qed.
Lemma nbytes_le z n : z < p256 n -> (nbytes z <= n)%nat.
Proof.
  intros H. destruct (Z.leb_spec z 0) as [Hz|Hz].
  - unfold nbytes. destruct (Z.leb_spec z 0); lia.
  - pose proof (nbytes_bounds z Hz) as [H1 _].
    destruct (le_lt_dec (nbytes z) n) as [|Hn]; [assumption|].
    pose proof (p256_mono n (pred (nbytes z)) ltac:(lia)). lia.
Qed.
Lemma Z_bytes_length z : length (Z_bytes z) = nbytes z.
Proof. apply Z_be_length. Qed.
Lemma be_Z_bytes z : 0 <= z -> be_Z (Z_bytes z) = z.
Proof.
  intros H. unfold Z_bytes. rewrite be_Z_be, Z.mod_small; [reflexivity|].
  split; [exact H|]. apply nbytes_lt; exact H.
Qed.
Lemma Z_bytes_pad z n : 0 <= z < p256 n ->
  Z_be n z = repeat x00 (n - nbytes z) ++ Z_bytes z.
Proof.
  intros [H0 H1]. pose proof (nbytes_le z n H1) as Hn. apply be_Z_inj.
  - rewrite Z_be_length, app_length, repeat_length, Z_bytes_length. lia.
  - rewrite be_Z_be, be_Z_zeros, be_Z_bytes, Z.mod_small; lia.
Qed.
Lemma Z_bytes_full z n : p256 n <= z < p256 (S n) -> Z_bytes z = Z_be (S n) z.
Proof.
  intros [H0 H1]. pose proof (p256_pos n).
  rewrite (Z_bytes_pad z (S n)) by lia.
  pose proof (nbytes_le z (S n) H1) as Hn.
  pose proof (nbytes_bounds z ltac:(lia)) as [_ Hb].
  destruct (le_lt_dec (nbytes z) n) as [Hx|Hx].
  - pose proof (p256_mono _ _ Hx). lia.
  - replace (S n - nbytes z)%nat with O by lia. reflexivity.
Qed.
Lemma Z_bytes_inj a b : 0 <= a -> 0 <= b -> Z_bytes a = Z_bytes b -> a = b.
Proof. intros Ha Hb H. rewrite <- (be_Z_bytes a Ha), <- (be_Z_bytes b Hb), H. reflexivity. Qed.

(** ** digits *)
(** In proofs; for bip32/bip32.go:81. *)
Definition eval_le (b : Z) (ds : list Z) : Z := fold_right (fun d acc => d + b * acc) 0 ds.

Lemma digs_eval fuel b n : 2 <= b -> 0 <= n -> n < 2 ^ Z.of_nat fuel ->
  eval_le b (digs fuel b n) = n.
Proof.
  intros Hb. revert n; induction fuel as [|f IH]; intros n Hn Hf.
  - simpl in Hf. cbn. lia.
  - cbn [digs]. destruct (Z.leb_spec n 0) as [H|H]; [cbn; lia|].
    cbn [eval_le fold_right]. fold (eval_le b). change (fold_right _ 0 ?l) with (eval_le b l).
    rewrite IH.
    + pose proof (Z.div_mod n b ltac:(lia)). lia.
    + apply Z.div_pos; lia.
    + rewrite Nat2Z.inj_succ, Z.pow_succ_r in Hf by lia.
      apply Z.div_lt_upper_bound; [lia|].
      assert (2 * 2 ^ Z.of_nat f <= b * 2 ^ Z.of_nat f)
        by (apply Z.mul_le_mono_nonneg_r; [apply Z.pow_nonneg|]; lia).
      lia.
Qed.
Lemma log2_fuel n : 0 <= n -> n < 2 ^ Z.of_nat (S (Z.to_nat (Z.log2 n))).
Proof.
  intros H. rewrite Nat2Z.inj_succ, Z2Nat.id by apply Z.log2_nonneg.
  destruct (Z.eq_dec n 0) as [->|Hn]; [reflexivity|]. apply Z.log2_spec; lia.
Qed.
Lemma digits_eval b n : 2 <= b -> 0 <= n -> eval_le b (digits b n) = n.
Proof. intros Hb Hn. apply digs_eval; [assumption..|]. apply log2_fuel; assumption. Qed.
Lemma digs_range fuel b n : 2 <= b -> Forall (fun d => 0 <= d < b) (digs fuel b n).
Proof.
  intros Hb; revert n; induction fuel as [|f IH]; intros n; cbn [digs]; [constructor|].
  destruct (n <=? 0); constructor; [apply Z.mod_pos_bound; lia|apply IH].
Qed.
Lemma digits_range b n : 2 <= b -> Forall (fun d => 0 <= d < b) (digits b n).
Proof. apply digs_range. Qed.
Lemma digs_nonzero_last fuel b n : 2 <= b -> 0 <= n -> n < 2 ^ Z.of_nat fuel ->
  digs fuel b n <> [] -> last (digs fuel b n) 0 <> 0.
Proof.
  intros Hb. revert n; induction fuel as [|f IH]; intros n Hn Hf; [intros H; now elim H|].
  cbn [digs]. destruct (Z.leb_spec n 0) as [H|H]; [intros C; now elim C|]. intros _.
  assert (Hdiv : n / b < 2 ^ Z.of_nat f).
  { rewrite Nat2Z.inj_succ, Z.pow_succ_r in Hf by lia.
    apply Z.div_lt_upper_bound; [lia|].
    assert (2 * 2 ^ Z.of_nat f <= b * 2 ^ Z.of_nat f)
      by (apply Z.mul_le_mono_nonneg_r; [apply Z.pow_nonneg|]; lia). lia. }
  assert (Hp : 0 <= n / b) by (apply Z.div_pos; lia).
  destruct (digs f b (n / b)) as [|d ds] eqn:E.
  - simpl. pose proof (digs_eval f b (n / b) Hb Hp Hdiv) as He. rewrite E in He. cbn in He.
    pose proof (Z.div_mod n b ltac:(lia)). lia.
  - rewrite <- E. replace (last (n mod b :: digs f b (n / b)) 0) with (last (digs f b (n/b)) 0).
    + apply IH; [assumption..|]. rewrite E. discriminate.
    + rewrite E. reflexivity.
Qed.
Lemma digits_last b n : 2 <= b -> 0 <= n -> digits b n <> [] -> last (digits b n) 0 <> 0.
Proof. intros; apply digs_nonzero_last; auto using log2_fuel. Qed.
Lemma digits_zero b : digits b 0 = []. Proof. reflexivity. Qed.

Lemma eval_le_nonneg b ds : 2 <= b -> Forall (fun d => 0 <= d < b) ds -> 0 <= eval_le b ds.
Proof.
  intros Hb H. induction H as [|d ds Hd H IH]; cbn; [lia|].
  change (fold_right _ 0 ?l) with (eval_le b l). nia.
Qed.
Lemma eval_le_inj b ds1 : 2 <= b -> forall ds2, 
  Forall (fun d => 0 <= d < b) ds1 -> Forall (fun d => 0 <= d < b) ds2 ->
  (ds1 <> [] -> last ds1 0 <> 0) -> (ds2 <> [] -> last ds2 0 <> 0) ->
  eval_le b ds1 = eval_le b ds2 -> ds1 = ds2.
Proof.
  intros Hb.
  assert (Z0 : forall ds, Forall (fun d => 0 <= d < b) ds -> (ds <> [] -> last ds 0 <> 0) ->
             eval_le b ds = 0 -> ds = []).
  { intros ds H. induction H as [|d ds Hd H IH]; [reflexivity|]. intros Hl He.
    exfalso. cbn in He. change (fold_right _ 0 ?l) with (eval_le b l) in He.
    pose proof (eval_le_nonneg b ds Hb H). assert (eval_le b ds = 0) by nia.
    assert (d = 0) by nia. subst d.
    destruct ds as [|d' ds']; [apply (Hl ltac:(discriminate)); reflexivity|].
    enough (d' :: ds' = []) by discriminate. apply IH; [|assumption].
    intros _. apply Hl. discriminate. }
  induction ds1 as [|d1 ds1 IH]; intros ds2 H1 H2 L1 L2 He.
  - symmetry. apply Z0; auto.
  - destruct ds2 as [|d2 ds2]; [apply Z0; auto|].
    inversion H1; subst. inversion H2; subst.
    cbn in He. change (fold_right _ 0 ?l) with (eval_le b l) in He.
    pose proof (eval_le_nonneg b ds1 Hb ltac:(assumption)).
    pose proof (eval_le_nonneg b ds2 Hb ltac:(assumption)).
    assert (Hq : eval_le b ds1 = eval_le b ds2).
    { apply (Z.div_mod_unique b) with (r1 := d1) (r2 := d2); lia. }
    assert (d1 = d2) by nia. subst d2. f_equal.
    apply IH; auto.
    + intros Hn. destruct ds1; [now elim Hn|]. apply L1. discriminate.
    + intros Hn. destruct ds2; [now elim Hn|]. apply L2. discriminate.
Qed.
Lemma digits_eval_le b ds : 2 <= b -> Forall (fun d => 0 <= d < b) ds ->
  (ds <> [] -> last ds 0 <> 0) -> digits b (eval_le b ds) = ds.
Proof.
  intros Hb H L. pose proof (eval_le_nonneg b ds Hb H).
  apply (eval_le_inj b); auto using digits_range, digits_last, digits_eval.
Qed.
Lemma eval_le_app b l1 l2 : eval_le b (l1 ++ l2) = eval_le b l1 + b ^ Z.of_nat (length l1) * eval_le b l2.
Proof.
  induction l1 as [|d l1 IH]; cbn [app].
  - change (eval_le b []) with 0. change (length (@nil Z)) with O. rewrite Z.pow_0_r. ring.
  - cbn [length]. change (eval_le b (d :: l1 ++ l2)) with (d + b * eval_le b (l1 ++ l2)).
    change (eval_le b (d :: l1)) with (d + b * eval_le b l1). rewrite IH.
    rewrite Nat2Z.inj_succ, Z.pow_succ_r by lia. ring.
Qed.

(** ** slice / overwrite *)
Lemma slice_length {A} lo hi (l : list A) : (lo <= hi <= length l)%nat ->
  length (slice lo hi l) = (hi - lo)%nat.
Proof. intros H. unfold slice. rewrite firstn_length, skipn_length. lia. Qed.
Lemma overwrite_length at_ src dst : (at_ + length src <= length dst)%nat ->
  length (overwrite at_ src dst) = length dst.
Proof.
  intros H. unfold overwrite. rewrite !app_length, firstn_length, skipn_length. lia.
Qed.
