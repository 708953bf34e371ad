(** GoFieldBytes.v - field values and scalars of the secp256k1 library as bytes; comparisons. *)
From Coq Require Import Lia ZifyBool.
From Verif Require Import Base BaseFacts Prime Secp SecpPrime Fp GoField GoFieldFacts.

Lemma lor_zero l : forall z, fold_right Z.lor z l = 0 <-> z = 0 /\ Forall (eq 0) l.
Proof.
  induction l as [|x l IH]; intros z; cbn [fold_right]; [intuition|]. rewrite Z.lor_eq_0_iff, IH. split.
  - intros (-> & -> & F). split; [reflexivity|]. constructor; auto.
  - intros (-> & F). inversion F; subst. auto.
Qed.
Lemma all_zero l n : length l = n -> Forall (eq 0) l -> l = repeat 0 n.
Proof. intros <-. induction 1 as [|x l E _ IH]; [reflexivity|]. cbn. subst x. f_equal. exact IH. Qed.
Lemma IsZero_iff f : length f = 10%nat -> IsZero f = true <-> f = SetInt 0.
Proof.
  intros L. unfold IsZero. rewrite Z.eqb_eq, lor_zero. split; [intros [_ F]; exact (all_zero f 10 L F)|]. intros ->. split; [reflexivity|]. repeat constructor.
Qed.
Lemma IsOne_iff f : length f = 10%nat -> IsOne f = true <-> f = SetInt 1.
Proof.
  intros L. destruct f as [|n0 r]; [discriminate|]. unfold IsOne. rewrite Z.eqb_eq, lor_zero. injection L as L. split.
  - intros [E F]. apply Z.lxor_eq in E. subst. unfold SetInt. f_equal. apply all_zero; assumption.
  - intros E. injection E as -> ->. split; [reflexivity|]. repeat constructor.
Qed.
Lemma Equals_iff f : forall g, length f = length g -> Equals f g = true <-> f = g.
Proof.
  unfold Equals. induction f as [|x f IH]; intros [|y g] L; try discriminate; [cbn; tauto|]. cbn [zipw fold_right]. injection L as L. specialize (IH g L).
  rewrite Z.eqb_eq in *. rewrite Z.lor_eq_0_iff, IH. split; [intros [E ->]; apply Z.lxor_eq in E; congruence|]. intros E. injection E as -> ->. split; [apply Z.lxor_nilpotent|reflexivity].
Qed.
Lemma SetInt_N n : 0 <= n < 2 ^ 26 -> N (SetInt n) (toF n).
Proof.
  intros Hn. split; [reflexivity|]. split; [constructor; [exact Hn|]; repeat constructor; cbn; lia|]. unfold SetInt. cbn [repeat lval fv toF]. rewrite Z.mod_small by (unfold secp_p; lia). lia.
Qed.
Lemma N_same f g a b : N f a -> N g b -> (f = g <-> a = b).
Proof.
  intros A B. split; [|intros ->; exact (N_unique f g b A B)]. intros ->. destruct A as (_ & _ & A), B as (_ & _ & B). apply Fp_eq. congruence.
Qed.
Lemma N_IsZero f a : N f a -> IsZero f = Feqb a F0.
Proof. intros A. apply eq_iff_eq_true. rewrite (IsZero_iff f (proj1 A)), Feqb_spec. apply (N_same f _ a F0 A). apply (SetInt_N 0). lia. Qed.
Lemma N_IsOne f a : N f a -> IsOne f = Feqb a F1.
Proof. intros A. apply eq_iff_eq_true. rewrite (IsOne_iff f (proj1 A)), Feqb_spec. apply (N_same f _ a F1 A). apply (SetInt_N 1). lia. Qed.
Lemma N_Equals f g a b : N f a -> N g b -> Equals f g = Feqb a b.
Proof. intros A B. apply eq_iff_eq_true. rewrite (Equals_iff f g) by (rewrite (proj1 A), (proj1 B); reflexivity). rewrite Feqb_spec. apply N_same; assumption. Qed.

(** ** Bytes *)
(** f are the ten words of z, reduced or not: bip32/utils.go:70 *)
Definition U (f : list Z) (z : Z) : Prop := length f = 10%nat /\ Forall dig f /\ lval f = z.
Lemma U_unique f g z : U f z -> U g z -> f = g.
Proof. intros (L & D & E) (L' & D' & E'). apply lval_inj; congruence. Qed.
Lemma N_U f a : N f a <-> U f (fv a). Proof. reflexivity. Qed.
Lemma U_R f z : z < 2 ^ 256 -> U f z -> R 1 f (toF z).
Proof.
  intros Hz (L & D & E). split; [|rewrite E; reflexivity].
  assert (Hf : f <> []) by (intros ->; discriminate). destruct (exists_last Hf) as (l & d & ->). rewrite app_length in L. cbn in L.
  apply Forall_app in D as [D1 D2]. inversion D2 as [|? ? Dd _]; subst. exists l, d. split; [reflexivity|]. split; [lia|]. split.
  { eapply Forall_impl; [|exact D1]. intros x. unfold dig, below, K. lia. }
  rewrite lval_app in Hz. pose proof (lval_range l D1) as Rl. replace (length l) with 9%nat in * by lia.
  cbn [lval] in Hz. unfold below, M, dig in *. change (26 * Z.of_nat 9) with 234 in *. lia.
Qed.
Lemma U_N f z : 0 <= z < secp_p -> U f z -> N f (toF z).
Proof. intros Hz (L & D & E). split; [exact L|]. split; [exact D|]. cbn [fv toF]. rewrite Z.mod_small by exact Hz. exact E. Qed.

Lemma lor_shift k a b : 0 <= k -> 0 <= a < 2 ^ k -> 0 <= b -> Z.lor a (Z.shiftl b k) = a + 2 ^ k * b.
Proof.
  intros Hk Ha Hb. assert (E : Z.land a (Z.shiftl b k) = 0).
  { apply Z.bits_inj'. intros i Hi. rewrite Z.land_spec, Z.bits_0, Z.shiftl_spec by lia. destruct (Z_lt_le_dec i k) as [L|L]; [rewrite (Z.testbit_neg_r b) by lia; apply andb_false_r|].
    assert (T : Z.testbit a i = false). { destruct (Z.eq_dec a 0) as [->|]; [apply Z.bits_0|]. apply Z.bits_above_log2; [lia|]. assert (Z.log2 a < k) by (apply Z.log2_lt_pow2; lia). lia. }
    rewrite T. reflexivity. }
  rewrite <- Z.lxor_lor by exact E. rewrite <- Z.add_nocarry_lxor by exact E. rewrite Z.shiftl_mul_pow2 by lia. ring.
Qed.
Lemma land_k k m x : 0 <= k -> m = Z.ones k -> Z.land x m = x mod 2 ^ k. Proof. intros Hk ->. apply Z.land_ones, Hk. Qed.
Lemma div_step n k j : 0 <= k -> 0 <= j -> n / 2 ^ k = 2 ^ j * (n / 2 ^ (k + j)) + (n / 2 ^ k) mod 2 ^ j.
Proof. intros Hk Hj. rewrite Z.pow_add_r by lia. rewrite <- Z.div_div by lia. apply Z.div_mod. lia. Qed.

Lemma or3_spec i j a b c : 0 <= i -> i <= j -> 0 <= a < 2 ^ i -> 0 <= b < 2 ^ (j - i) -> 0 <= c ->
  Z.lor (Z.lor a (Z.shiftl b i)) (Z.shiftl c j) = a + 2 ^ i * b + 2 ^ j * c.
Proof.
  intros Hi Hj Ha Hb Hc. rewrite (lor_shift i) by lia. apply lor_shift; [lia| |lia].
  replace (2 ^ j) with (2 ^ i * 2 ^ (j - i)) by (rewrite <- Z.pow_add_r by lia; f_equal; lia). set (P := 2 ^ i) in *. set (Q := 2 ^ (j - i)) in *. nia.
Qed.
Lemma or4_spec i j k a b c d : 0 <= i -> i <= j -> j <= k -> 0 <= a < 2 ^ i -> 0 <= b < 2 ^ (j - i) -> 0 <= c < 2 ^ (k - j) -> 0 <= d ->
  Z.lor (Z.lor (Z.lor a (Z.shiftl b i)) (Z.shiftl c j)) (Z.shiftl d k) = a + 2 ^ i * b + 2 ^ j * c + 2 ^ k * d.
Proof.
  intros Hi Hj Hk Ha Hb Hc Hd. rewrite (or3_spec i j a b c Hi Hj Ha Hb (proj1 Hc)). apply lor_shift; [lia| |exact Hd].
  replace (2 ^ k) with (2 ^ i * 2 ^ (j - i) * 2 ^ (k - j)) by (rewrite <- !Z.pow_add_r by lia; f_equal; lia).
  replace (2 ^ j) with (2 ^ i * 2 ^ (j - i)) by (rewrite <- Z.pow_add_r by lia; f_equal; lia).
  assert (P : 0 < 2 ^ i) by (apply Z.pow_pos_nonneg; lia). assert (Q : 0 < 2 ^ (j - i)) by (apply Z.pow_pos_nonneg; lia).
  set (x := 2 ^ i) in *. set (y := 2 ^ (j - i)) in *. set (z := 2 ^ (k - j)) in *. clearbody x y z.
  assert (x * b <= x * (y - 1)) by (apply Z.mul_le_mono_nonneg_l; lia). assert (x * y * c <= x * y * (z - 1)) by (apply Z.mul_le_mono_nonneg_l; lia).
  assert (0 <= x * b) by (apply Z.mul_nonneg_nonneg; lia). assert (0 <= x * y * c) by (apply Z.mul_nonneg_nonneg; lia). lia.
Qed.
(** A byte's value: bip32/utils.go:64, 70 *)
Definition byt (b : Z) : Prop := 0 <= b < 256.
(** The value of bytes, most significant first: bip32/utils.go:64, 70 *)
Definition bval (l : list Z) : Z := fold_left (fun a b => a * 256 + b) l 0.
Lemma bval_be l : bval (map Zb l) = be_Z l.
Proof. unfold bval, be_Z. generalize 0. induction l as [|x l IH]; intros z; [reflexivity|]. cbn. apply IH. Qed.

Lemma SetBytes_spec b : length b = 32%nat -> Forall byt b -> U (SetBytes b) (bval b).
Proof.
  intros L F. do 32 (destruct b as [|? b]; [discriminate L|]). destruct b; [|discriminate L]. clear L.
  repeat match goal with H : Forall _ (_ :: _) |- _ => inversion H; clear H; subst end. unfold byt in *. unfold SetBytes.
  rewrite !(land_k 2 3), !(land_k 4 15), !(land_k 6 63) by (lia || reflexivity). rewrite !Z.shiftr_div_pow2 by lia.
  repeat match goal with |- context [?x mod 2 ^ ?k] => is_var x;
    let q := fresh "q" in let r := fresh "r" in pose proof (Z.div_mod x (2 ^ k) ltac:(lia)); pose proof (Z.mod_pos_bound x (2 ^ k) ltac:(lia));
    set (q := x / 2 ^ k) in *; set (r := x mod 2 ^ k) in *; clearbody q r end.
  rewrite !(or4_spec 8 16 24), !(or4_spec 6 14 22), !(or4_spec 4 12 20), !(or4_spec 2 10 18), (or3_spec 6 14) by lia.
  split; [reflexivity|]. split; [unfold dig; repeat constructor; lia|]. unfold bval. cbn [lval fold_left]. lia.
Qed.
Lemma bytes32_length b : length (bytes32 b) = 32%nat.
Proof. unfold bytes32. rewrite map_length, app_length, repeat_length. pose proof (firstn_le_length 32 b). lia. Qed.
Lemma bytes32_byt b : Forall byt (bytes32 b).
Proof. apply Forall_map, Forall_forall. intros x _. apply Zb_range. Qed.
Lemma bytes32_val b : (length b <= 32)%nat -> bval (bytes32 b) = be_Z b.
Proof. intros L. unfold bytes32. rewrite bval_be, firstn_all2, be_Z_zeros by exact L. reflexivity. Qed.
Lemma SetByteSlice_spec b : (length b <= 32)%nat -> U (SetByteSlice b) (be_Z b).
Proof. intros L. rewrite <- bytes32_val by exact L. apply SetBytes_spec; [apply bytes32_length|apply bytes32_byt]. Qed.

Lemma land_255 x k : 0 <= k -> Z.land (Z.shiftr x k) 255 = (x / 2 ^ k) mod 2 ^ 8.
Proof. intros Hk. rewrite Z.shiftr_div_pow2 by exact Hk. apply (land_k 8); [lia|reflexivity]. Qed.
Lemma Zb_small z : byt z -> Zb (bZ z) = z.
Proof. intros Hz. rewrite Zb_bZ. apply Z.mod_small, Hz. Qed.
Lemma mix_spec j m n x y : 0 <= j -> m = Z.ones j -> 0 <= n -> Z.lor (Z.land x m) (Z.shiftl (Z.land y (Z.ones n)) j) = x mod 2 ^ j + 2 ^ j * (y mod 2 ^ n).
Proof.
  intros Hj -> Hn. rewrite !Z.land_ones by assumption. apply lor_shift; [exact Hj| |].
  - apply Z.mod_pos_bound, Z.pow_pos_nonneg; lia.
  - apply Z.mod_pos_bound, Z.pow_pos_nonneg; lia.
Qed.
Lemma split4 i n : 0 <= i <= 8 -> 0 <= n < 2 ^ 26 ->
  n = n mod 2 ^ i + 2 ^ i * ((n / 2 ^ i) mod 2 ^ 8) + 2 ^ (i + 8) * ((n / 2 ^ (i + 8)) mod 2 ^ 8) + 2 ^ (i + 16) * ((n / 2 ^ (i + 16)) mod 2 ^ (10 - i)).
Proof.
  intros Hi Hn. pose proof (div_step n 0 i ltac:(lia) ltac:(lia)) as A. pose proof (div_step n i 8 ltac:(lia) ltac:(lia)) as B. pose proof (div_step n (i + 8) 8 ltac:(lia) ltac:(lia)) as C.
  change (2 ^ 0) with 1 in A. rewrite Z.div_1_r in A. replace (0 + i) with i in A by lia. replace (i + 8 + 8) with (i + 16) in C by lia.
  assert (T : 0 <= n / 2 ^ (i + 16) < 2 ^ (10 - i)).
  { assert (P : 0 < 2 ^ (i + 16)) by (apply Z.pow_pos_nonneg; lia). split; [apply Z.div_pos; lia|]. apply Z.div_lt_upper_bound; [exact P|]. rewrite <- Z.pow_add_r by lia. replace (i + 16 + (10 - i)) with 26 by lia. lia. }
  rewrite (Z.mod_small (n / 2 ^ (i + 16))) by exact T. rewrite !(Z.pow_add_r 2 i) in * by lia.
  set (P := 2 ^ i) in *. set (q := n / P) in *. set (q2 := n / (P * 2 ^ 8)) in *. set (q3 := n / (P * 2 ^ 16)) in *. clearbody P q q2 q3. lia.
Qed.
Lemma mod_byt x : byt (x mod 2 ^ 8). Proof. apply Z.mod_pos_bound. lia. Qed.
Lemma mix_byt x y j k : 0 <= j -> 0 <= k -> j + k = 8 -> byt (x mod 2 ^ j + 2 ^ j * (y mod 2 ^ k)).
Proof.
  intros Hj Hk E. assert (P : 0 < 2 ^ j) by (apply Z.pow_pos_nonneg; lia). assert (Q : 0 < 2 ^ k) by (apply Z.pow_pos_nonneg; lia).
  assert (T : 2 ^ j * 2 ^ k = 256) by (rewrite <- Z.pow_add_r, E by lia; reflexivity).
  pose proof (Z.mod_pos_bound x _ P). pose proof (Z.mod_pos_bound y _ Q). unfold byt. set (a := x mod 2 ^ j) in *. set (b := y mod 2 ^ k) in *. nia.
Qed.
Lemma FieldBytes_spec f z : z < 2 ^ 256 -> U f z -> be_Z (FieldBytes f) = z /\ length (FieldBytes f) = 32%nat.
Proof.
  intros Hz (L & D & E).
  destruct f as [|n0 [|n1 [|n2 [|n3 [|n4 [|n5 [|n6 [|n7 [|n8 [|n9 [|]]]]]]]]]]]; try discriminate L. clear L.
  repeat match goal with H : Forall _ (_ :: _) |- _ => inversion H; clear H; subst end.
  unfold dig in *. assert (T9 : n9 < 2 ^ 22) by (cbn [lval] in Hz; lia).
  unfold FieldBytes. cbv zeta beta.
  rewrite !land_255 by lia.
  change 3 with (Z.ones 2). change 15 with (Z.ones 4). change 63 with (Z.ones 6).
  rewrite !(mix_spec 2 _ 6), !(mix_spec 4 _ 4), !(mix_spec 6 _ 2) by (lia || reflexivity).
  rewrite !Z.shiftr_div_pow2 by lia.
  split; [|reflexivity]. rewrite <- bval_be. cbn [map].
  change (2 ^ 0) with 1. rewrite !Z.div_1_r.
  pose proof (split4 8 n0 ltac:(clear; lia) ltac:(assumption)) as E0. pose proof (split4 6 n1 ltac:(clear; lia) ltac:(assumption)) as E1. pose proof (split4 4 n2 ltac:(clear; lia) ltac:(assumption)) as E2.
  pose proof (split4 2 n3 ltac:(clear; lia) ltac:(assumption)) as E3. pose proof (split4 8 n4 ltac:(clear; lia) ltac:(assumption)) as E4. pose proof (split4 6 n5 ltac:(clear; lia) ltac:(assumption)) as E5.
  pose proof (split4 4 n6 ltac:(clear; lia) ltac:(assumption)) as E6. pose proof (split4 2 n7 ltac:(clear; lia) ltac:(assumption)) as E7. pose proof (split4 8 n8 ltac:(clear; lia) ltac:(assumption)) as E8.
  pose proof (split4 6 n9 ltac:(clear; lia) ltac:(assumption)) as E9. rewrite (Z.div_small n9 (2 ^ (6 + 16))), Z.mod_0_l in E9 by (discriminate || (change (6 + 16) with 22; clear - H10 T9; lia)).
  change (8 + 8) with 16 in *. change (8 + 16) with 24 in *. change (10 - 8) with 2 in *. change (6 + 8) with 14 in *. change (6 + 16) with 22 in *. change (10 - 6) with 4 in *.
  change (4 + 8) with 12 in *. change (4 + 16) with 20 in *. change (10 - 4) with 6 in *. change (2 + 8) with 10 in *. change (2 + 16) with 18 in *. change (10 - 2) with 8 in *.
  rewrite !Zb_small by (apply mod_byt || (apply mix_byt; [discriminate|discriminate|reflexivity])).
  repeat match goal with |- context [?x mod 2 ^ ?k] => let r := fresh "r" in set (r := x mod 2 ^ k) in *; clearbody r end.
  unfold bval. cbn [fold_left lval]. clear - E0 E1 E2 E3 E4 E5 E6 E7 E8 E9. subst. ring.
Qed.
Lemma N_bytes f a : N f a -> be_Z (FieldBytes f) = fv a.
Proof. intros A. apply (FieldBytes_spec f (fv a)); [|exact A]. pose proof (fv_range a). unfold secp_p in *. lia. Qed.

(** ** Inverse *)
(** f is the e-th power of z: bip32/utils.go:64, 70 *)
Definition PW (z e : Z) (f : list Z) : Prop := 0 <= e /\ R 1 f (toF (z ^ e)).
Lemma PW_Mul z e e' f g : PW z e f -> PW z e' g -> PW z (e + e') (Mul f g).
Proof. intros [A B] [A' B']. split; [lia|]. rewrite Z.pow_add_r, toF_mul by assumption. apply (R_Mul 1 1); [lia|lia|assumption..]. Qed.
Lemma PW_Sq z e f : PW z e f -> PW z (e + e) (Square f).
Proof. intros [A B]. split; [lia|]. rewrite Z.pow_add_r, toF_mul by assumption. apply (R_Sq 1); [lia|assumption]. Qed.
Lemma PW_sq10 z e f : PW z e f -> PW z (1024 * e) (sq10 f).
Proof.
  intros A. unfold sq10. cbn [Nat.iter nat_rect]. do 10 apply PW_Sq in A. match type of A with PW _ ?u _ => replace (1024 * e) with u by lia end. exact A.
Qed.
Lemma PW_eq z e e' f : PW z e f -> e = e' -> PW z e' f. Proof. intros A <-. exact A. Qed.
Lemma PW_iter z e a n : PW z 1023 a -> forall f, PW z e f -> PW z (1024 ^ Z.of_nat n * (e + 1) - 1) (Nat.iter n (fun f => Mul (sq10 f) a) f).
Proof.
  intros A f F. induction n as [|n IH]; [refine (PW_eq z _ _ _ F _); change (1024 ^ Z.of_nat 0) with 1; lia|].
  change (Nat.iter (S n) ?h f) with (h (Nat.iter n h f)). cbv beta. refine (PW_eq z _ _ _ (PW_Mul _ _ _ _ _ (PW_sq10 _ _ _ IH) A) _).
  rewrite Nat2Z.inj_succ, Z.pow_succ_r by lia. lia.
Qed.
Lemma PW_end z e g a1019 a1023 a45 : PW z e g -> PW z 1019 a1019 -> PW z 1023 a1023 -> PW z 45 a45 ->
  PW z (1024 * (1024 * (1024 * (1024 * e + 1019) + 1023) + 1023) + 45) (Mul (sq10 (Mul (sq10 (Mul (sq10 (Mul (sq10 g) a1019)) a1023)) a1023)) a45).
Proof. intros G A C D. repeat first [assumption|apply PW_Mul|apply PW_sq10]. Qed.
Lemma R_Inverse f a : R 1 f a -> R 1 (Inverse f) (Finv a).
Proof.
  intros H. assert (P1 : PW (fv a) 1 f) by (split; [lia|]; rewrite Z.pow_1_r, toF_fv; exact H). unfold Inverse.
  set (a2 := Square f). assert (P2 : PW (fv a) 2 a2) by (refine (PW_eq _ _ _ _ (PW_Sq _ _ _ P1) _); lia).
  set (a3 := Mul a2 f). assert (P3 : PW (fv a) 3 a3) by (refine (PW_eq _ _ _ _ (PW_Mul _ _ _ _ _ P2 P1) _); lia).
  set (a4 := Square a2). assert (P4 : PW (fv a) 4 a4) by (refine (PW_eq _ _ _ _ (PW_Sq _ _ _ P2) _); lia).
  set (a10 := Mul (Square a4) a2). assert (P10 : PW (fv a) 10 a10) by (refine (PW_eq _ _ _ _ (PW_Mul _ _ _ _ _ (PW_Sq _ _ _ P4) P2) _); lia).
  set (a11 := Mul a10 f). assert (P11 : PW (fv a) 11 a11) by (refine (PW_eq _ _ _ _ (PW_Mul _ _ _ _ _ P10 P1) _); lia).
  set (a21 := Mul a10 a11). assert (P21 : PW (fv a) 21 a21) by (refine (PW_eq _ _ _ _ (PW_Mul _ _ _ _ _ P10 P11) _); lia).
  set (a42 := Square a21). assert (P42 : PW (fv a) 42 a42) by (refine (PW_eq _ _ _ _ (PW_Sq _ _ _ P21) _); lia).
  set (a45 := Mul a42 a3). assert (P45 : PW (fv a) 45 a45) by (refine (PW_eq _ _ _ _ (PW_Mul _ _ _ _ _ P42 P3) _); lia).
  set (a63 := Mul a42 a21). assert (P63 : PW (fv a) 63 a63) by (refine (PW_eq _ _ _ _ (PW_Mul _ _ _ _ _ P42 P21) _); lia).
  set (a1019 := Mul (Square (Square (Square (Square a63)))) a11).
  assert (P1019 : PW (fv a) 1019 a1019) by (refine (PW_eq _ _ _ _ (PW_Mul _ _ _ _ _ (PW_Sq _ _ _ (PW_Sq _ _ _ (PW_Sq _ _ _ (PW_Sq _ _ _ P63)))) P11) _); lia).
  set (a1023 := Mul a1019 a4). assert (P1023 : PW (fv a) 1023 a1023) by (refine (PW_eq _ _ _ _ (PW_Mul _ _ _ _ _ P1019 P4) _); lia).
  clearbody a2 a3 a4 a10 a11 a21 a42 a45 a63 a1019 a1023.
  assert (E : 1024 * (1024 * (1024 * (1024 * (1024 ^ Z.of_nat 21 * (63 + 1) - 1) + 1019) + 1023) + 1023) + 45 = secp_p - 2) by (vm_compute; reflexivity).
  pose proof (PW_end _ _ _ _ _ _ (PW_iter _ 63 _ 21 P1023 _ P63) P1019 P1023 P45) as Q. rewrite E in Q. exact (proj2 Q).
Qed.

(** ** Scalars *)
(** The number that words of 32 bits stand for: bip32/utils.go:64 *)
Fixpoint wval (l : list Z) : Z := match l with [] => 0 | d :: l => d + 2 ^ 32 * wval l end.
(** A word of 32 bits: bip32/utils.go:64 *)
Definition word (d : Z) : Prop := 0 <= d < 2 ^ 32.
Lemma words32_spec b : length b = 32%nat -> Forall byt b -> length (words32 b) = 8%nat /\ Forall word (words32 b) /\ wval (words32 b) = bval b.
Proof.
  intros L F. do 32 (destruct b as [|? b]; [discriminate L|]). destruct b; [|discriminate L]. clear L.
  repeat match goal with H : Forall _ (_ :: _) |- _ => inversion H; clear H; subst end. unfold byt in *. unfold words32. cbn [app].
  rewrite !(or4_spec 8 16 24) by lia. split; [reflexivity|]. split; [unfold word; repeat constructor; lia|]. unfold bval. cbn [wval fold_left]. lia.
Qed.
Lemma overflows_spec s : length s = 8%nat -> Forall word s -> overflows s = if secp_n <=? wval s then 1 else 0.
Proof.
  intros L F. destruct s as [|s0 [|s1 [|s2 [|s3 [|s4 [|s5 [|s6 [|s7 [|]]]]]]]]]; try discriminate L. clear L.
  repeat match goal with H : Forall _ (_ :: _) |- _ => inversion H; clear H; subst end. unfold overflows, orderWords. cbv zeta. unfold word in *.
  rewrite !ctEq_spec, !ctGreater_spec, !ctGreaterOrEq_spec by lia. repeat first [rewrite if_land|rewrite if_lor].
  match goal with |- (if ?b then _ else _) = (if ?c then _ else _) => replace b with c; [reflexivity|] end.
  symmetry. unfold secp_n. cbn [wval].
  Ltac top := cbn [andb orb]; symmetry; apply Z.leb_gt; lia.
  Ltac mid := cbn [andb orb]; rewrite ?andb_false_r; cbn [andb orb]; match goal with |- context [?a <? ?b] => destruct (Z.ltb_spec a b) end; cbn [andb orb]; rewrite ?orb_true_r; symmetry; [apply Z.leb_le|apply Z.leb_gt]; lia.
  destruct (Z.eqb_spec s7 4294967295); [|top]. destruct (Z.eqb_spec s6 4294967295); [|top]. destruct (Z.eqb_spec s5 4294967295); [|top].
  destruct (Z.eqb_spec s4 4294967294); [|mid]. replace (4294967294 <? s4) with false by lia.
  destruct (Z.eqb_spec s3 3132021990); [|mid]. replace (3132021990 <? s3) with false by lia.
  destruct (Z.eqb_spec s2 2940772411); [|mid]. replace (2940772411 <? s2) with false by lia.
  destruct (Z.eqb_spec s1 3218235020); [|mid]. replace (3218235020 <? s1) with false by lia.
  cbn [andb orb]. apply eq_iff_eq_true. rewrite !Z.leb_le. lia.
Qed.
Lemma wval_range l : Forall word l -> 0 <= wval l < 2 ^ (32 * Z.of_nat (length l)).
Proof.
  induction 1 as [|x l X _ IH]; [cbn; lia|]. cbn [wval length]. rewrite Nat2Z.inj_succ. unfold word in X.
  replace (32 * Z.succ (Z.of_nat (length l))) with (32 + 32 * Z.of_nat (length l)) by lia. rewrite Z.pow_add_r by lia.
  set (P := 2 ^ (32 * Z.of_nat (length l))) in *. lia.
Qed.
Lemma reduce256_spec o s : 0 <= o <= 1 -> Forall word s -> forall k c, Forall word k -> length k = length s -> 0 <= c <= 1 ->
  Forall word (reduce256 o c s k) /\ length (reduce256 o c s k) = length s /\ wval (reduce256 o c s k) = (c + wval s + o * wval k) mod 2 ^ (32 * Z.of_nat (length s)).
Proof.
  intros Ho. induction 1 as [|x s X F IH]; intros [|y k] c FK L Hc; try discriminate L.
  - cbn [reduce256 wval length]. split; [constructor|]. split; [reflexivity|]. change (2 ^ (32 * Z.of_nat 0)) with 1. rewrite Z.mod_1_r. reflexivity.
  - inversion FK as [|? ? Y FK']; subst. injection L as L. cbn [reduce256]. unfold word in X, Y.
    assert (B : 0 <= c + x + o * y <= 2 * 2 ^ 32 - 1) by (assert (0 <= o * y <= 2 ^ 32 - 1) by (split; [apply Z.mul_nonneg_nonneg; lia|]; assert (o = 0 \/ o = 1) as [-> | ->] by lia; lia); lia).
    rewrite w64_id by lia. rewrite (land_k 32 0xffffffff) by (lia || reflexivity). rewrite Z.shiftr_div_pow2 by lia.
    set (v := c + x + o * y) in *. assert (Hq : 0 <= v / 2 ^ 32 <= 1).
    { split; [apply Z.div_pos; lia|]. apply Z.lt_succ_r, Z.div_lt_upper_bound; lia. }
    destruct (IH k (v / 2 ^ 32) FK' L Hq) as (A1 & A2 & A3). pose proof (Z.mod_pos_bound v (2 ^ 32) ltac:(lia)) as M0.
    split; [constructor; assumption|]. split; [cbn [length]; congruence|]. cbn [wval length]. rewrite A3.
    rewrite Nat2Z.inj_succ. replace (32 * Z.succ (Z.of_nat (length s))) with (32 + 32 * Z.of_nat (length s)) by lia. rewrite Z.pow_add_r by lia.
    set (Pw := 2 ^ (32 * Z.of_nat (length s))) in *. assert (PP : 0 < Pw) by (apply Z.pow_pos_nonneg; lia).
    pose proof (Z.div_mod v (2 ^ 32) ltac:(lia)) as DM. set (q := v / 2 ^ 32) in *.
    replace (c + (x + 2 ^ 32 * wval s) + o * (y + 2 ^ 32 * wval k)) with (2 ^ 32 * (q + wval s + o * wval k) + v mod 2 ^ 32) by (unfold v in *; lia).
    rewrite Z.rem_mul_r by lia. rewrite (Z.mul_comm (2 ^ 32) (q + _ + _)), (Z.add_comm (_ * 2 ^ 32)), Z_mod_plus_full, Z.mod_mod by lia.
    rewrite Z.div_add by lia. rewrite (Z.div_small (v mod 2 ^ 32)) by lia. reflexivity.
Qed.
Lemma ScalarSet_spec b : (length b <= 32)%nat -> length (ScalarSetByteSlice b) = 8%nat /\ Forall word (ScalarSetByteSlice b) /\ wval (ScalarSetByteSlice b) = be_Z b mod secp_n.
Proof.
  intros L. destruct (words32_spec (bytes32 b) (bytes32_length b) (bytes32_byt b)) as (L8 & F & V). rewrite bytes32_val in V by exact L.
  unfold ScalarSetByteSlice. cbv zeta. set (s := words32 (bytes32 b)) in *. rewrite (overflows_spec s L8 F). set (o := if secp_n <=? wval s then 1 else 0).
  assert (Ho : 0 <= o <= 1) by (unfold o; destruct (secp_n <=? wval s); lia).
  destruct (reduce256_spec o s Ho F orderComplement 0) as (A & C & E).
  { unfold word, orderComplement. repeat constructor; lia. } { rewrite L8. reflexivity. } { lia. }
  split; [congruence|]. split; [exact A|]. rewrite E, L8. change (32 * Z.of_nat 8) with 256. pose proof (wval_range s F) as RV. rewrite L8 in RV. change (32 * Z.of_nat 8) with 256 in RV.
  rewrite <- V. change (wval orderComplement) with (2 ^ 256 - secp_n). unfold o. destruct (Z.leb_spec secp_n (wval s)) as [G|G].
  - replace (0 + wval s + 1 * (2 ^ 256 - secp_n)) with (wval s - secp_n + 1 * 2 ^ 256) by lia. rewrite Z_mod_plus_full. rewrite Z.mod_small by (unfold secp_n in *; lia).
    rewrite <- (Z_mod_plus_full (wval s) (-1)). rewrite Z.mod_small; unfold secp_n in *; lia.
  - rewrite !Z.mod_small by (unfold secp_n in *; lia). lia.
Qed.
Lemma word_bytes x : word x -> map bZ [Z.shiftr x 24; Z.shiftr x 16; Z.shiftr x 8; x] = Z_be 4 x.
Proof. intros _. rewrite !Z.shiftr_div_pow2 by lia. cbn [map Z_be app]. rewrite !Z.div_div by lia. reflexivity. Qed.
Lemma ScalarBytes_val s : Forall word s -> be_Z (ScalarBytes s) = wval s.
Proof.
  unfold ScalarBytes. induction 1 as [|x s X _ IH]; [reflexivity|]. cbn [rev]. rewrite map_app, concat_app, be_Z_app, IH. cbn [map concat]. rewrite app_nil_r.
  change [bZ (Z.shiftr x 24); bZ (Z.shiftr x 16); bZ (Z.shiftr x 8); bZ x] with (map bZ [Z.shiftr x 24; Z.shiftr x 16; Z.shiftr x 8; x]).
  rewrite word_bytes by exact X. rewrite be_Z_be, Z_be_length. change (p256 4) with (2 ^ 32). rewrite Z.mod_small by exact X. cbn [wval]. lia.
Qed.
Lemma ScalarBytes_length s : length (ScalarBytes s) = (4 * length s)%nat.
Proof.
  unfold ScalarBytes. set (f := fun x => map bZ _). rewrite <- (rev_length s). induction (rev s) as [|x l IH]; [reflexivity|]. cbn [map concat]. rewrite app_length, IH. cbn [length]. change (length (f x)) with 4%nat. lia.
Qed.
Lemma Scalar_spec b : (length b <= 32)%nat -> ScalarBytes (ScalarSetByteSlice b) = Z_be 32 (be_Z b mod secp_n).
Proof.
  intros L. destruct (ScalarSet_spec b L) as (A & F & E). rewrite <- E, <- ScalarBytes_val by exact F. symmetry. apply Z_be_be_Z. rewrite ScalarBytes_length, A. reflexivity.
Qed.
