(** GoFieldFacts.v - the words of GoField.v compute in the prime field of secp256k1. *)
From Coq Require Import Lia ZifyBool.
From Verif Require Import Base BaseFacts Prime Secp SecpPrime Fp GoField.

Lemma w32_id z : 0 <= z < 2 ^ 32 -> w32 z = z. Proof. apply Z.mod_small. Qed.
Lemma w64_id z : 0 <= z < 2 ^ 64 -> w64 z = z. Proof. apply Z.mod_small. Qed.
Lemma land_base m : Z.land m fieldBaseMask = m mod 2 ^ 26. Proof. exact (Z.land_ones m 26 ltac:(lia)). Qed.
Lemma land_msb m : Z.land m fieldMSBMask = m mod 2 ^ 22. Proof. exact (Z.land_ones m 22 ltac:(lia)). Qed.
Lemma shr26 m : Z.shiftr m 26 = m / 2 ^ 26. Proof. apply Z.shiftr_div_pow2. lia. Qed.
Lemma shr22 m : Z.shiftr m 22 = m / 2 ^ 22. Proof. apply Z.shiftr_div_pow2. lia. Qed.

(** The number that words of 26 bits stand for: bip32/utils.go:64, 70 *)
Fixpoint lval (l : list Z) : Z := match l with [] => 0 | d :: r => d + 2 ^ 26 * lval r end.
(** A word below the base: bip32/utils.go:64, 70 *)
Definition dig (d : Z) : Prop := 0 <= d < 2 ^ 26.
(** bip32/utils.go:64, 70 *)
Definition below (B d : Z) : Prop := 0 <= d <= B.
Lemma lval_app a b : lval (a ++ b) = lval a + 2 ^ (26 * Z.of_nat (length a)) * lval b.
Proof.
  induction a as [|d a IH]; [change (lval b = 0 + 1 * lval b); lia|]. cbn [app lval length]. rewrite IH, Nat2Z.inj_succ.
  replace (26 * Z.succ (Z.of_nat (length a))) with (26 + 26 * Z.of_nat (length a)) by lia. rewrite Z.pow_add_r by lia. ring.
Qed.
Lemma lval_range l : Forall dig l -> 0 <= lval l < 2 ^ (26 * Z.of_nat (length l)).
Proof.
  induction 1 as [|d l D _ IH]; [change (0 <= 0 < 1); lia|]. cbn [lval length]. rewrite Nat2Z.inj_succ.
  replace (26 * Z.succ (Z.of_nat (length l))) with (26 + 26 * Z.of_nat (length l)) by lia. rewrite Z.pow_add_r by lia. unfold dig in D.
  set (P := 2 ^ (26 * Z.of_nat (length l))) in *. clearbody P. lia.
Qed.
Lemma lval_inj a b : length a = length b -> Forall dig a -> Forall dig b -> lval a = lval b -> a = b.
Proof.
  revert b. induction a as [|x a IH]; intros [|y b] L A B E; try discriminate; [reflexivity|]. inversion A; inversion B; subst. cbn [lval] in E. unfold dig in *.
  assert (x = y) by (rewrite <- (Z.mod_small x (2 ^ 26)), <- (Z.mod_small y (2 ^ 26)) by lia; rewrite <- (Z_mod_plus_full x (lval a) (2 ^ 26)), <- (Z_mod_plus_full y (lval b) (2 ^ 26)); f_equal; lia).
  subst. f_equal. apply IH; auto; lia.
Qed.

Lemma carry_app wr l : forall c r, carry wr c (l ++ r) = let (t, c1) := carry wr c l in let (t', c2) := carry wr c1 r in (t ++ t', c2).
Proof.
  induction l as [|x l IH]; intros c r; [cbn; destruct (carry wr c r); reflexivity|]. cbn [app carry]. rewrite IH.
  destruct (carry wr (Z.shiftr (wr (c + x)) 26) l) as [t c1]. destruct (carry wr c1 r). reflexivity.
Qed.
Lemma carry_spec wr W B C l : (forall z, 0 <= z < W -> wr z = z) -> C + B < W -> C + B < 2 ^ 26 * (C + 1) ->
  forall c, 0 <= c <= C -> Forall (below B) l ->
  length (fst (carry wr c l)) = length l /\ Forall dig (fst (carry wr c l)) /\ 0 <= snd (carry wr c l) <= C /\
  lval (fst (carry wr c l)) + 2 ^ (26 * Z.of_nat (length l)) * snd (carry wr c l) = c + lval l.
Proof.
  intros Hw H1 H2. induction l as [|x l IH]; intros c Hc Hl; [cbn [carry fst snd length]; split; [reflexivity|split; [constructor|split; [exact Hc|change (0 + 1 * c = c + 0); lia]]]|]. inversion Hl as [|? ? Hx Hl']; subst. unfold below in Hx.
  cbn [carry]. rewrite Hw by lia. rewrite shr26, land_base. destruct (IH ((c + x) / 2 ^ 26)) as (L & D & R & E); auto.
  { split; [apply Z.div_pos; lia|]. apply Z.lt_succ_r, Z.div_lt_upper_bound; lia. }
  destruct (carry wr ((c + x) / 2 ^ 26) l) as [t c']. cbn [fst snd] in *. cbn [length lval]. split; [congruence|]. split.
  { constructor; [apply Z.mod_pos_bound; lia|exact D]. } split; [exact R|]. rewrite Nat2Z.inj_succ.
  replace (26 * Z.succ (Z.of_nat (length l))) with (26 + 26 * Z.of_nat (length l)) by lia. rewrite Z.pow_add_r by lia.
  pose proof (Z.div_mod (c + x) (2 ^ 26) ltac:(lia)) as Dm. rewrite <- Z.mul_assoc.
  transitivity ((c + x) mod 2 ^ 26 + 2 ^ 26 * (lval t + 2 ^ (26 * Z.of_nat (length l)) * c')); [ring|]. rewrite E. lia.
Qed.

(** ** Magnitudes *)
(** The bound on a word of magnitude 1: bip32/utils.go:64, 70 *)
Definition K : Z := 2 ^ 26 + 2 ^ 20.
(** The bound on the last word: bip32/utils.go:64, 70 *)
Definition M : Z := 2 ^ 22 - 1.
(** The magnitude of a field value, as the comments of field.go count it: bip32/utils.go:64, 70 *)
Definition mag (m : Z) (f : list Z) : Prop := exists l d, f = l ++ [d] /\ length l = 9%nat /\ Forall (below (m * K)) l /\ below (m * M) d.
(** f stands for a, with magnitude m: bip32/utils.go:64, 70 *)
Definition R (m : Z) (f : list Z) (a : Fp) : Prop := mag m f /\ toF (lval f) = a.
(** f is normalized and stands for a: bip32/utils.go:64, 70 *)
Definition N (f : list Z) (a : Fp) : Prop := length f = 10%nat /\ Forall dig f /\ lval f = fv a.

Lemma mag_le m m' f : m <= m' -> mag m f -> mag m' f.
Proof.
  intros L (l & d & -> & Ll & F & D). exists l, d. repeat split; auto; [|unfold below, M in *; lia|unfold below, M in *; lia].
  eapply Forall_impl; [|exact F]. intros x. unfold below, K. lia.
Qed.
Lemma R_le m m' f a : m <= m' -> R m f a -> R m' f a. Proof. intros L [A B]. split; [apply (mag_le m); assumption|exact B]. Qed.
Lemma N_R f a : N f a -> R 1 f a.
Proof.
  intros (L & D & E). split; [|rewrite E; apply toF_fv].
  assert (Hf : f <> []) by (intros ->; discriminate). destruct (exists_last Hf) as (l & d & ->). rewrite app_length in L. cbn in L.
  apply Forall_app in D as [D1 D2]. inversion D2 as [|? ? Dd _]; subst. exists l, d. split; [reflexivity|]. split; [lia|]. split.
  { eapply Forall_impl; [|exact D1]. intros x. unfold dig, below, K. lia. }
  rewrite lval_app in E. pose proof (fv_range a) as Ra. pose proof (lval_range l D1) as Rl. replace (length l) with 9%nat in * by lia.
  cbn [lval] in E. unfold below, M, dig in *. change secp_p with 0xFFFFFFFFFFFFFFFFFFFFFFFFFFFFFFFFFFFFFFFFFFFFFFFFFFFFFFFEFFFFFC2F in Ra. change (26 * Z.of_nat 9) with 234 in *. lia.
Qed.
Lemma N_unique f g a : N f a -> N g a -> f = g.
Proof. intros (L & D & E) (L' & D' & E'). apply lval_inj; congruence. Qed.

Lemma lval_add f : forall g, length f = length g -> lval (zipw Z.add f g) = lval f + lval g.
Proof. induction f as [|x f IH]; intros [|y g] L; try discriminate; [reflexivity|]. cbn [zipw lval]. rewrite IH by (injection L; auto). ring. Qed.
Lemma zipw_ext op op' f g : Forall (fun p => op (fst p) (snd p) = op' (fst p) (snd p)) (combine f g) -> zipw op f g = zipw op' f g.
Proof. revert g. induction f as [|x f IH]; intros [|y g] F; try reflexivity. inversion F; subst. cbn in *. f_equal; auto. Qed.
Lemma zipw_app op a b c d : length a = length c -> zipw op (a ++ b) (c ++ d) = zipw op a c ++ zipw op b d.
Proof. revert c. induction a as [|x a IH]; intros [|y c] L; try discriminate; [reflexivity|]. cbn. f_equal. apply IH. injection L; auto. Qed.
Lemma zipw_length op a b : length a = length b -> length (zipw op a b) = length a.
Proof. revert b. induction a as [|x a IH]; intros [|y b] L; try discriminate; [reflexivity|]. cbn. f_equal. apply IH. injection L; auto. Qed.
Lemma zipw_Forall (P Q S : Z -> Prop) op a b : (forall x y, P x -> Q y -> S (op x y)) -> Forall P a -> Forall Q b -> Forall S (zipw op a b).
Proof. intros H A. revert b. induction A; intros b B; [constructor|]. destruct B; [constructor|]. cbn. constructor; auto. Qed.
Lemma zipw_same (P Q : Z -> Prop) op op' a b : (forall x y, P x -> Q y -> op x y = op' x y) -> Forall P a -> Forall Q b -> zipw op a b = zipw op' a b.
Proof. intros H A. revert b. induction A; intros b B; [reflexivity|]. destruct B; [reflexivity|]. cbn. f_equal; auto. Qed.

Lemma R_Add m m' f g a b : 0 <= m -> 0 <= m' -> m + m' <= 60 -> R m f a -> R m' g b -> R (m + m') (Add f g) (Fadd a b).
Proof.
  intros Hm Hm' Hs [(l & d & -> & Ll & F & D) Ea] [(l' & d' & -> & Ll' & F' & D') Eb]. unfold Add. rewrite zipw_app by congruence.
  assert (E : zipw (fun a b => w32 (a + b)) l l' = zipw Z.add l l').
  { eapply zipw_same; [|exact F|exact F']. intros x y. unfold below, K. intros. apply w32_id. lia. }
  assert (E' : zipw (fun a b => w32 (a + b)) [d] [d'] = zipw Z.add [d] [d']).
  { cbn. f_equal. apply w32_id. unfold below, M in *. lia. }
  rewrite E, E', <- zipw_app by congruence. split.
  - rewrite zipw_app by congruence. exists (zipw Z.add l l'), (d + d'). split; [reflexivity|]. split; [rewrite zipw_length; congruence|].
    split; [|unfold below, M in *; lia]. eapply zipw_Forall; [|exact F|exact F']. unfold below, K. lia.
  - rewrite lval_add by (rewrite !app_length; cbn; lia). rewrite toF_add, Ea, Eb. reflexivity.
Qed.
Lemma R_MulInt k m f a : 0 <= k -> 0 <= m -> k * m <= 60 -> R m f a -> R (k * m) (MulInt k f) (Fmul (toF k) a).
Proof.
  intros Hk Hm Hs [(l & d & -> & Ll & F & D) Ea]. unfold MulInt.
  assert (E : map (fun x => w32 (x * k)) (l ++ [d]) = map (fun x => k * x) (l ++ [d])).
  { apply map_ext_in. intros x Hx. rewrite Z.mul_comm. apply w32_id. apply in_app_or in Hx as [Hx|[<-|[]]].
    - pose proof (proj1 (Forall_forall _ _) F x Hx) as Bx. unfold below, K in Bx. nia.
    - unfold below, M in D. nia. }
  rewrite E. split.
  - rewrite map_app. exists (map (fun x => k * x) l), (k * d). split; [reflexivity|]. split; [rewrite map_length; exact Ll|]. split.
    + apply Forall_map. eapply Forall_impl; [|exact F]. intros x. unfold below, K. nia.
    + unfold below, M in *. nia.
  - assert (V : forall l, lval (map (fun x => k * x) l) = k * lval l) by (clear; induction l as [|x l IH]; [cbn; lia|]; cbn [map lval]; rewrite IH; ring).
    rewrite V, toF_mul, Ea. reflexivity.
Qed.
(** The words of the prime: bip32/utils.go:64, 70 *)
Definition primeWords : list Z := fieldPrimeWordZero :: fieldPrimeWordOne :: repeat fieldBaseMask 7 ++ [fieldMSBMask].
Lemma lval_prime : lval primeWords = secp_p. Proof. reflexivity. Qed.
Lemma lval_neg k P : forall f, length P = length f -> lval (zipw (fun p x => k * p - x) P f) = k * lval P - lval f.
Proof. induction P as [|x P IH]; intros [|y g] L; try discriminate; [cbn; lia|]. cbn [zipw lval]. rewrite IH by (injection L; auto). ring. Qed.
Lemma R_Neg m f a : 0 <= m <= 40 -> R m f a -> R (m + 1) (Negate m f) (Fopp a).
Proof.
  intros Hm [(l & d & -> & Ll & F & D) Ea]. unfold Negate. fold primeWords.
  set (P := fieldPrimeWordZero :: fieldPrimeWordOne :: repeat fieldBaseMask 7).
  change primeWords with (P ++ [fieldMSBMask]). rewrite zipw_app by (rewrite Ll; reflexivity).
  assert (BP : Forall (fun p => 2 ^ 26 - 1000 <= p < 2 ^ 26) P) by (unfold P, fieldPrimeWordZero, fieldPrimeWordOne, fieldBaseMask; cbn [repeat]; repeat constructor; lia).
  assert (E : zipw (fun p x => w32 ((m + 1) * p - x)) P l = zipw (fun p x => (m + 1) * p - x) P l).
  { eapply zipw_same; [|exact BP|exact F]. intros x y Bx By. cbv beta in Bx. unfold below, K in By. apply w32_id. pose proof (Z.mul_le_mono_nonneg_l (2 ^ 26 - 1000) x (m + 1) ltac:(lia) ltac:(lia)). pose proof (Z.mul_le_mono_nonneg_l x (2 ^ 26) (m + 1) ltac:(lia) ltac:(lia)). lia. }
  assert (E' : zipw (fun p x => w32 ((m + 1) * p - x)) [fieldMSBMask] [d] = zipw (fun p x => (m + 1) * p - x) [fieldMSBMask] [d]).
  { cbn. f_equal. apply w32_id. unfold below, M, fieldMSBMask in *. lia. }
  rewrite E, E'. split.
  - exists (zipw (fun p x => (m + 1) * p - x) P l), ((m + 1) * fieldMSBMask - d). split; [reflexivity|]. split; [rewrite zipw_length; [reflexivity|rewrite Ll; reflexivity]|].
    split; [|unfold below, M, fieldMSBMask in *; lia]. eapply zipw_Forall; [|exact BP|exact F]. unfold below, K. intros x y Bx By. cbv beta in Bx.
    pose proof (Z.mul_le_mono_nonneg_l (2 ^ 26 - 1000) x (m + 1) ltac:(lia) ltac:(lia)). pose proof (Z.mul_le_mono_nonneg_l x (2 ^ 26) (m + 1) ltac:(lia) ltac:(lia)). lia.
  - rewrite <- zipw_app by (rewrite Ll; reflexivity). change (P ++ [fieldMSBMask]) with primeWords. rewrite lval_neg by (rewrite app_length; cbn; lia).
    rewrite lval_prime, <- Ea, <- toF_opp. apply toF_eq. rewrite <- (Z_mod_plus_full (- lval (l ++ [d])) (m + 1) secp_p). f_equal. ring.
Qed.

(** ** Products *)
Lemma addw_nil f : addw f [] = f. Proof. destruct f; reflexivity. Qed.
Lemma lval_addw f : forall g, lval (addw f g) = lval f + lval g.
Proof. induction f as [|x f IH]; intros [|y g]; cbn [addw lval]; try rewrite IH; lia. Qed.
Lemma lval_scale k l : lval (map (Z.mul k) l) = k * lval l.
Proof. induction l as [|x l IH]; [cbn; lia|]. cbn [map lval]. rewrite IH. ring. Qed.
Lemma lval_products f g : lval (products f g) = lval f * lval g.
Proof. induction f as [|x f IH]; [reflexivity|]. cbn [products]. rewrite lval_addw, lval_scale. cbn [lval]. rewrite IH. ring. Qed.
Lemma addw_assoc f : forall g h, addw f (addw g h) = addw (addw f g) h.
Proof. induction f as [|x f IH]; intros [|y g] [|z h]; cbn; auto. f_equal; [lia|apply IH]. Qed.
Lemma addw_comm f : forall g, addw f g = addw g f.
Proof. induction f as [|x f IH]; intros [|y g]; cbn; auto. f_equal; [lia|apply IH]. Qed.
Lemma products_cons_r f x g : f <> [] -> g <> [] -> products f (x :: g) = addw (map (Z.mul x) f) (0 :: products f g).
Proof.
  intros Hf Hg. induction f as [|a f IH]; [contradiction|]. cbn [products map addw]. f_equal; [lia|]. destruct f as [|b f].
  - cbn [products map addw]. destruct g as [|y g]; [contradiction|]. cbn. rewrite addw_nil. f_equal. lia.
  - rewrite IH by discriminate. rewrite !addw_assoc. f_equal. apply addw_comm.
Qed.
Lemma squares_products f : squares f = products f f.
Proof.
  induction f as [|a f IH]; [reflexivity|]. cbn [squares products map addw]. f_equal; [lia|]. destruct f as [|b f]; [reflexivity|]. rewrite products_cons_r by discriminate.
  rewrite <- IH, addw_assoc. f_equal. generalize (b :: f). intros l. induction l as [|x l IHl]; [reflexivity|]. cbn [map addw]. f_equal; [lia|exact IHl].
Qed.
Lemma addw_bound A B f : forall g, 0 <= A -> 0 <= B -> Forall (below A) f -> Forall (below B) g -> Forall (below (A + B)) (addw f g).
Proof.
  induction f as [|x f IH]; intros [|y g] HA HB F G; cbn [addw]; auto.
  - eapply Forall_impl; [|exact G]. unfold below. lia.
  - eapply Forall_impl; [|exact F]. unfold below. lia.
  - inversion F; inversion G; subst. constructor; [unfold below in *; lia|auto].
Qed.
Lemma products_bound A B f g : 0 <= A -> 0 <= B -> Forall (below A) f -> Forall (below B) g -> Forall (below (Z.of_nat (length f) * (A * B))) (products f g).
Proof.
  intros HA HB F G. induction F as [|x f Fx F IH]; [constructor|]. cbn [products length]. rewrite Nat2Z.inj_succ.
  replace (Z.succ (Z.of_nat (length f)) * (A * B)) with (A * B + Z.of_nat (length f) * (A * B)) by ring. apply addw_bound; [nia|nia| |].
  - apply Forall_map. eapply Forall_impl; [|exact G]. unfold below in *. intros. nia.
  - constructor; [unfold below; nia|exact IH].
Qed.
Lemma addw_length f : forall g, length (addw f g) = Nat.max (length f) (length g).
Proof. induction f as [|x f IH]; intros [|y g]; cbn; auto. Qed.
Lemma products_length f g : f <> [] -> g <> [] -> length (products f g) = (length f + length g - 1)%nat.
Proof.
  intros Hf Hg. induction f as [|x f IH]; [contradiction|]. cbn [products]. rewrite addw_length, map_length. destruct f as [|y f].
  - cbn. destruct g; [contradiction|]. cbn. lia.
  - cbn [length] in *. rewrite IH by discriminate. destruct g; [contradiction|]. cbn [length]. lia.
Qed.
Lemma addw_last f : forall g x y, length f = length g -> addw (f ++ [x]) (g ++ [y]) = addw f g ++ [x + y].
Proof. induction f as [|a f IH]; intros [|b g] x y L; try discriminate; [reflexivity|]. cbn. f_equal. apply IH. injection L; auto. Qed.
Lemma addw_last_r f : forall g y, (length f <= length g)%nat -> exists h, length h = length g /\ addw f (g ++ [y]) = h ++ [y].
Proof.
  induction f as [|a f IH]; intros [|b g] y L; cbn in L; try lia.
  - exists []. split; reflexivity.
  - exists (b :: g). split; reflexivity.
  - destruct (IH g y ltac:(lia)) as (h & Lh & E). exists (a + b :: h). cbn. split; [congruence|]. rewrite E. reflexivity.
Qed.
Lemma products_last f x g y : exists h, length h = (length f + length g)%nat /\ products (f ++ [x]) (g ++ [y]) = h ++ [x * y].
Proof.
  induction f as [|a f IH].
  - cbn [app products length]. exists (map (Z.mul x) g). split; [rewrite map_length; reflexivity|]. rewrite map_app. cbn [map].
    assert (Hz : forall l, l <> [] -> addw l [0] = l) by (intros [|z l] Hl; [contradiction|]; cbn; rewrite addw_nil; f_equal; lia).
    rewrite Hz; [reflexivity|]. destruct (map (Z.mul x) g); discriminate.
  - destruct IH as (h & Lh & E). cbn [app products]. rewrite E. destruct (addw_last_r (map (Z.mul a) (g ++ [y])) (0 :: h) (x * y)) as (h' & Lh' & E').
    { rewrite map_length, app_length. cbn [length]. lia. }
    exists h'. split; [cbn [length] in *; lia|]. exact E'.
Qed.

(** Nine words written out; for the proofs below. bip32/utils.go:64, 70 *)
Ltac nine l L := let x0 := fresh "x" in let x1 := fresh "x" in let x2 := fresh "x" in let x3 := fresh "x" in let x4 := fresh "x" in
  let x5 := fresh "x" in let x6 := fresh "x" in let x7 := fresh "x" in let x8 := fresh "x" in
  destruct l as [|x0 [|x1 [|x2 [|x3 [|x4 [|x5 [|x6 [|x7 [|x8 [|]]]]]]]]]]; try discriminate L; clear L.
Ltac split_all := repeat match goal with H : Forall _ (_ :: _) |- _ => inversion H; clear H; subst | H : Forall _ [] |- _ => clear H end.

Lemma reduce_spec l z : length l = 18%nat -> Forall (below (2 ^ 62)) l -> below (2 ^ 50) z ->
  mag 1 (reduce (l ++ [z])) /\ toF (lval (reduce (l ++ [z]))) = toF (lval (l ++ [z])).
Proof.
  intros Ll Fl Hz. unfold reduce. rewrite carry_app.
  destruct (carry_spec w64 (2 ^ 64) (2 ^ 62) (2 ^ 37) l w64_id ltac:(lia) ltac:(lia) 0 ltac:(lia) Fl) as (L1 & D1 & R1 & E1).
  destruct (carry w64 0 l) as [t c]. cbn [fst snd] in *. change (carry w64 c [z]) with ([Z.land (w64 (c + z)) fieldBaseMask], Z.shiftr (w64 (c + z)) 26). unfold below in Hz. rewrite (w64_id (c + z)) by lia. rewrite shr26, land_base.
  set (t18 := (c + z) mod 2 ^ 26). set (t19 := (c + z) / 2 ^ 26).
  assert (D18 : dig t18) by (apply Z.mod_pos_bound; lia). assert (B19 : 0 <= t19 <= 2 ^ 24 + 2 ^ 12) by (unfold t19; split; [apply Z.div_pos; lia|apply Z.lt_succ_r, Z.div_lt_upper_bound; lia]).
  assert (E18 : c + z = 2 ^ 26 * t19 + t18) by (apply Z.div_mod; lia). clearbody t18 t19.
  rewrite Ll in L1, E1.
  destruct t as [|t0 [|t1 [|t2 [|t3 [|t4 [|t5 [|t6 [|t7 [|t8 t]]]]]]]]]; try discriminate L1. destruct t as [|t9 [|t10 [|t11 [|t12 [|t13 [|t14 [|t15 [|t16 [|t17 [|]]]]]]]]]]; try discriminate L1.
  cbn [app].
  set (cs := [t0 + t10 * 15632; t1 + t10 * 1024 + t11 * 15632; t2 + t11 * 1024 + t12 * 15632;
        t3 + t12 * 1024 + t13 * 15632; t4 + t13 * 1024 + t14 * 15632; t5 + t14 * 1024 + t15 * 15632;
        t6 + t15 * 1024 + t16 * 15632; t7 + t16 * 1024 + t17 * 15632; t8 + t17 * 1024 + t18 * 15632]).
  assert (Fc : Forall (below (2 ^ 41)) cs) by (split_all; unfold dig in *; unfold cs, below; repeat constructor; lia).
  assert (Vc : lval cs = lval [t0; t1; t2; t3; t4; t5; t6; t7; t8] + 68719492368 * lval [t10; t11; t12; t13; t14; t15; t16; t17; t18] - 2 ^ 234 * 1024 * t18)
    by (unfold cs; cbn [lval]; ring).
  assert (L2 : length cs = 9%nat) by reflexivity. clearbody cs.
  destruct (carry_spec w64 (2 ^ 64) (2 ^ 41) (2 ^ 16) cs w64_id ltac:(lia) ltac:(lia) 0 ltac:(lia) Fc) as (L3 & D3 & R3 & E3).
  destruct (carry w64 0 cs) as [s c9]. cbn [fst snd] in *. rewrite L2 in *. clear L2.
  assert (D9 : dig t9) by (split_all; assumption).
  rewrite (w64_id (c9 + t9 + t18 * 1024 + t19 * 68719492368)) by (unfold dig in *; lia).
  set (m9 := c9 + t9 + t18 * 1024 + t19 * 68719492368). rewrite land_msb, shr22.
  assert (B9 : 0 <= m9 < 2 ^ 61) by (unfold m9, dig in *; lia).
  set (s9 := m9 mod 2 ^ 22). set (m := m9 / 2 ^ 22).
  assert (Ds9 : 0 <= s9 < 2 ^ 22) by (apply Z.mod_pos_bound; lia). assert (Bm : 0 <= m < 2 ^ 39) by (unfold m; split; [apply Z.div_pos; lia|apply Z.div_lt_upper_bound; lia]).
  assert (Em : m9 = 2 ^ 22 * m + s9) by (apply Z.div_mod; lia). clearbody s9 m.
  destruct s as [|s0 [|s1 [|s2 [|s3 [|s4 [|s5 [|s6 [|s7 [|s8 [|]]]]]]]]]]; try discriminate L3.
  assert (Ds : dig s0 /\ dig s1 /\ dig s2 /\ dig s3 /\ dig s4 /\ dig s5 /\ dig s6 /\ dig s7 /\ dig s8) by (split_all; auto 20).
  destruct Ds as (Ds0 & Ds1 & Ds2 & Ds3 & Ds4 & Ds5 & Ds6 & Ds7 & Ds8). unfold dig in *.
  rewrite (w64_id (s0 + m * 977)) by lia. rewrite !land_base, !shr26.
  set (a := (s0 + m * 977) mod 2 ^ 26). set (q := (s0 + m * 977) / 2 ^ 26).
  assert (Da : 0 <= a < 2 ^ 26) by (apply Z.mod_pos_bound; lia). assert (Bq : 0 <= q < 2 ^ 24) by (unfold q; split; [apply Z.div_pos; lia|apply Z.div_lt_upper_bound; lia]).
  assert (Ea : s0 + m * 977 = 2 ^ 26 * q + a) by (apply Z.div_mod; lia). clearbody a q.
  rewrite (w64_id (q + s1 + m * 64)) by lia.
  set (b := (q + s1 + m * 64) mod 2 ^ 26). set (q' := (q + s1 + m * 64) / 2 ^ 26).
  assert (Db : 0 <= b < 2 ^ 26) by (apply Z.mod_pos_bound; lia). assert (Bq' : 0 <= q' < 2 ^ 20) by (unfold q'; split; [apply Z.div_pos; lia|apply Z.div_lt_upper_bound; lia]).
  assert (Eb : q + s1 + m * 64 = 2 ^ 26 * q' + b) by (apply Z.div_mod; lia). clearbody b q'.
  rewrite (w64_id (q' + s2)) by lia. cbn [map]. rewrite !w32_id by lia. split.
  - exists [a; b; q' + s2; s3; s4; s5; s6; s7; s8], s9. split; [reflexivity|]. split; [reflexivity|]. split; [|unfold below, M; lia].
    unfold below, K. repeat constructor; lia.
  - apply toF_eq. rewrite lval_app, Ll. change (lval [z]) with (z + 2 ^ 26 * 0). rewrite Z.mul_0_r, Z.add_0_r.
    assert (V : lval l + 2 ^ (26 * Z.of_nat 18) * z =
      lval [a; b; q' + s2; s3; s4; s5; s6; s7; s8; s9] + (16 * (lval [t10; t11; t12; t13; t14; t15; t16; t17; t18; t19]) + m) * secp_p).
    { change (2 ^ (26 * Z.of_nat 18)) with (2 ^ 468) in *. change (2 ^ (26 * Z.of_nat 9)) with (2 ^ 234) in *.
      unfold secp_p. cbn [lval] in *. unfold m9 in Em. clear -E1 E3 Vc Em Ea Eb E18. lia. }
    rewrite V. symmetry. apply Z_mod_plus_full.
Qed.

Lemma R_Mul m m' f g a b : 0 <= m <= 8 -> 0 <= m' <= 8 -> R m f a -> R m' g b -> R 1 (Mul f g) (Fmul a b).
Proof.
  intros Hm Hm' [(l & d & -> & Ll & F & D) Ea] [(l' & d' & -> & Ll' & F' & D') Eb]. unfold Mul.
  destruct (products_last l d l' d') as (h & Lh & E).
  assert (Bf : forall m l d, 0 <= m <= 8 -> Forall (below (m * K)) l -> below (m * M) d -> Forall (below (8 * K)) (l ++ [d])).
  { clear. intros m l d Hm F D. apply Forall_app. split; [eapply Forall_impl; [|exact F]; unfold below, K; intros; lia|]. constructor; [|constructor]. unfold below, K, M in *. lia. }
  pose proof (products_bound (8 * K) (8 * K) (l ++ [d]) (l' ++ [d']) ltac:(unfold K; lia) ltac:(unfold K; lia) (Bf _ _ _ Hm F D) (Bf _ _ _ Hm' F' D')) as PB.
  rewrite E in PB |- *. apply Forall_app in PB as [PB _]. rewrite app_length, Ll in PB.
  destruct (reduce_spec h (d * d')) as [G1 G2].
  - lia.
  - eapply Forall_impl; [|exact PB]. unfold below, K. cbn [length]. intros x. lia.
  - unfold below, M in *. nia.
  - split; [exact G1|]. rewrite G2, <- E, lval_products, toF_mul, Ea, Eb. reflexivity.
Qed.
Lemma R_Sq m f a : 0 <= m <= 8 -> R m f a -> R 1 (Square f) (Fmul a a).
Proof. intros Hm H. unfold Square. rewrite squares_products. exact (R_Mul m m f f a a Hm Hm H H). Qed.

(** ** Comparison and normalization *)
Lemma ctEq_spec a b : 0 <= a < 2 ^ 32 -> 0 <= b < 2 ^ 32 -> ctEq a b = if a =? b then 1 else 0.
Proof.
  intros A B. unfold ctEq. destruct (Z.eqb_spec a b) as [->|Ne]; [rewrite Z.lxor_nilpotent; reflexivity|].
  assert (Nz : Z.lxor a b <> 0) by (intros E; apply Ne, Z.lxor_eq, E).
  assert (P : 0 <= Z.lxor a b) by (apply Z.lxor_nonneg; lia).
  assert (U : Z.lxor a b < 2 ^ 32).
  { destruct (Z.eq_dec (Z.lxor a b) 0) as [->|]; [lia|]. apply Z.log2_lt_pow2; [lia|].
    pose proof (Z.log2_lxor a b ltac:(lia) ltac:(lia)). assert (La : Z.log2 a < 32) by (destruct (Z.eq_dec a 0) as [->|]; [cbn; lia|apply Z.log2_lt_pow2; lia]).
    assert (Lb : Z.log2 b < 32) by (destruct (Z.eq_dec b 0) as [->|]; [cbn; lia|apply Z.log2_lt_pow2; lia]). lia. }
  rewrite w64_id by lia. rewrite Z.shiftr_div_pow2 by lia. rewrite Z.div_small by lia. reflexivity.
Qed.
Lemma neg64 z : - 2 ^ 63 <= z < 0 -> w32 (Z.shiftr (w64 z) 63) = 1.
Proof.
  intros Hz. unfold w64. rewrite <- (Z_mod_plus_full z 1), Z.mod_small by lia. rewrite Z.shiftr_div_pow2 by lia.
  replace ((z + 1 * 2 ^ 64) / 2 ^ 63) with 1 by (apply (Z.div_unique _ _ _ (z + 2 ^ 63)); lia). reflexivity.
Qed.
Lemma pos64 z : 0 <= z < 2 ^ 63 -> w32 (Z.shiftr (w64 z) 63) = 0.
Proof. intros Hz. rewrite w64_id by lia. rewrite Z.shiftr_div_pow2, Z.div_small by lia. reflexivity. Qed.
Lemma ctGreater_spec a b : 0 <= a < 2 ^ 32 -> 0 <= b < 2 ^ 32 -> ctGreater a b = if b <? a then 1 else 0.
Proof. intros A B. unfold ctGreater, ctLess. destruct (Z.ltb_spec b a); [apply neg64|apply pos64]; lia. Qed.
Lemma ctGreaterOrEq_spec a b : 0 <= a < 2 ^ 32 -> 0 <= b < 2 ^ 32 -> ctGreaterOrEq a b = if b <=? a then 1 else 0.
Proof. intros A B. unfold ctGreaterOrEq, ctLessOrEq. destruct (Z.leb_spec b a); [apply neg64|apply pos64]; lia. Qed.
Lemma dig_bits x : dig x -> forall i, 26 <= i -> Z.testbit x i = false.
Proof. intros D i Hi. unfold dig in D. destruct (Z.eq_dec x 0) as [->|]; [apply Z.bits_0|]. apply Z.bits_above_log2; [lia|]. assert (Z.log2 x < 26) by (apply Z.log2_lt_pow2; lia). lia. Qed.
Lemma land_dig x y : dig x -> dig y -> dig (Z.land x y).
Proof.
  intros X Y. unfold dig. assert (P : 0 <= Z.land x y) by (apply Z.land_nonneg; left; apply X). split; [exact P|].
  destruct (Z.eq_dec (Z.land x y) 0) as [->|]; [lia|]. apply Z.log2_lt_pow2; [lia|]. pose proof (Z.log2_land x y (proj1 X) (proj1 Y)).
  assert (Z.log2 x < 26) by (unfold dig in X; destruct (Z.eq_dec x 0) as [->|]; [cbn; lia|apply Z.log2_lt_pow2; lia]). lia.
Qed.
Lemma land_mask x y : dig x -> dig y -> (Z.land x y = fieldBaseMask <-> x = fieldBaseMask /\ y = fieldBaseMask).
Proof.
  intros X Y. split; [|intros [-> ->]; reflexivity]. intros E.
  assert (Ob : forall i, 0 <= i < 26 -> Z.testbit fieldBaseMask i = true) by (intros i Hi; change fieldBaseMask with (Z.ones 26); apply Z.ones_spec_low; lia).
  assert (Oh : forall i, 26 <= i -> Z.testbit fieldBaseMask i = false) by (intros i Hi; change fieldBaseMask with (Z.ones 26); apply Z.ones_spec_high; lia).
  assert (One : forall z, dig z -> (forall i, 0 <= i < 26 -> Z.testbit z i = true) -> z = fieldBaseMask).
  { intros z Dz Hz. apply Z.bits_inj'. intros i Hi. destruct (Z_lt_le_dec i 26) as [L|L]; [rewrite Ob, Hz by lia; reflexivity|rewrite (dig_bits z Dz i L), Oh by lia; reflexivity]. }
  assert (T : forall i, 0 <= i < 26 -> Z.testbit x i = true /\ Z.testbit y i = true).
  { intros i Hi. apply andb_true_iff. rewrite <- Z.land_spec, E. apply Ob, Hi. }
  split; apply One; auto; intros i Hi; apply T, Hi.
Qed.
Lemma shiftl6 m : Z.shiftl m 6 = m * 64. Proof. rewrite Z.shiftl_mul_pow2 by lia. reflexivity. Qed.
Lemma if_land (a b : bool) : Z.land (if a then 1 else 0) (if b then 1 else 0) = if a && b then 1 else 0.
Proof. destruct a, b; reflexivity. Qed.
Lemma if_lor (a b : bool) : Z.lor (if a then 1 else 0) (if b then 1 else 0) = if a || b then 1 else 0.
Proof. destruct a, b; reflexivity. Qed.

Lemma R_Normalize m f a : 0 <= m <= 32 -> R m f a -> N (Normalize f) a.
Proof.
  intros Hm [(l & n9 & -> & Ll & F & D) <-]. unfold below, M in D.
  destruct l as [|n0 [|n1 [|n2 [|n3 [|n4 [|n5 [|n6 [|n7 [|n8 [|]]]]]]]]]]; try discriminate Ll. clear Ll. cbn [app]. unfold Normalize.
  rewrite shr22, land_msb, shiftl6. set (k := n9 / 2 ^ 22). set (t9 := n9 mod 2 ^ 22).
  assert (Dt9 : 0 <= t9 < 2 ^ 22) by (apply Z.mod_pos_bound; lia). assert (Bk : 0 <= k <= 32) by (unfold k; split; [apply Z.div_pos; lia|apply Z.lt_succ_r, Z.div_lt_upper_bound; lia]).
  assert (Ek : n9 = 2 ^ 22 * k + t9) by (apply Z.div_mod; lia). clearbody k t9.
  set (cs := [n0 + k * 977; n1 + k * 64; n2; n3; n4; n5; n6; n7; n8]).
  assert (Fc : Forall (below (32 * K + 2 ^ 16)) cs) by (split_all; unfold below, K in *; unfold cs; repeat constructor; lia).
  assert (Vc : lval cs = lval [n0; n1; n2; n3; n4; n5; n6; n7; n8] + k * 4294968273) by (unfold cs; cbn [lval]; ring).
  assert (L2 : length cs = 9%nat) by reflexivity. clearbody cs.
  destruct (carry_spec w32 (2 ^ 32) (32 * K + 2 ^ 16) 64 cs w32_id ltac:(unfold K; lia) ltac:(unfold K; lia) 0 ltac:(lia) Fc) as (L3 & D3 & R3 & E3).
  destruct (carry w32 0 cs) as [t c]. cbn [fst snd] in *. rewrite L2 in *. clear L2.
  destruct t as [|t0 [|t1 [|t2 [|t3 [|t4 [|t5 [|t6 [|t7 [|t8 [|]]]]]]]]]]; try discriminate L3. clear L3.
  rewrite (w32_id (c + t9)) by lia. set (s9 := c + t9) in *. assert (Bs9 : 0 <= s9 <= 2 ^ 22 + 64) by lia.
  assert (Ds : dig t0 /\ dig t1 /\ dig t2 /\ dig t3 /\ dig t4 /\ dig t5 /\ dig t6 /\ dig t7 /\ dig t8) by (split_all; auto 20).
  destruct Ds as (D0 & D1 & D2 & D3' & D4 & D5 & D6 & D7 & D8).
  set (V1 := lval [t0; t1; t2; t3; t4; t5; t6; t7; t8] + 2 ^ 234 * s9).
  assert (EV : lval [n0; n1; n2; n3; n4; n5; n6; n7; n8; n9] = V1 + k * secp_p).
  { change (2 ^ (26 * Z.of_nat 9)) with (2 ^ 234) in E3. unfold V1, secp_p. cbn [lval] in *. unfold s9. lia. }
  assert (RV : 0 <= V1 < 2 ^ 256 + 65 * 2 ^ 234).
  { pose proof (lval_range [t0; t1; t2; t3; t4; t5; t6; t7; t8] D3) as LR. change (2 ^ (26 * Z.of_nat (length [t0; t1; t2; t3; t4; t5; t6; t7; t8]))) with (2 ^ 234) in LR. unfold V1. lia. }
  rewrite (ctEq_spec s9) by (unfold fieldMSBMask; lia).
  assert (Dl : dig (Z.land (Z.land (Z.land (Z.land (Z.land (Z.land t8 t7) t6) t5) t4) t3) t2)) by auto 20 using land_dig.
  rewrite ctEq_spec by (unfold dig, fieldBaseMask in *; lia). unfold dig in D0, D1.
  rewrite (w32_id (t0 + 977)) by lia. rewrite shr26. set (q := (t0 + 977) / 2 ^ 26). assert (Eq : 0 <= t0 + 977 - 2 ^ 26 * q < 2 ^ 26) by (pose proof (Z.div_mod (t0 + 977) (2 ^ 26) ltac:(lia)); pose proof (Z.mod_pos_bound (t0 + 977) (2 ^ 26) ltac:(lia)); fold q in H; lia).
  clearbody q. rewrite (w32_id (t1 + 64 + q)) by lia. rewrite ctGreater_spec by (unfold fieldBaseMask; lia). rewrite !if_land.
  assert (Es9 : s9 / 2 ^ 22 = if 2 ^ 22 <=? s9 then 1 else 0).
  { destruct (Z.leb_spec (2 ^ 22) s9); [symmetry; apply (Z.div_unique _ _ _ (s9 - 2 ^ 22)); lia|apply Z.div_small; lia]. }
  rewrite shr22, Es9, if_lor.
  set (B := (s9 =? fieldMSBMask) && (Z.land (Z.land (Z.land (Z.land (Z.land (Z.land t8 t7) t6) t5) t4) t3) t2 =? fieldBaseMask) && (fieldBaseMask <? t1 + 64 + q) || (2 ^ 22 <=? s9)).
  assert (HB : B = (secp_p <=? V1)).
  { apply eq_iff_eq_true. unfold B. rewrite orb_true_iff, !andb_true_iff, !Z.eqb_eq, Z.ltb_lt, !Z.leb_le.
    assert (LM : Z.land (Z.land (Z.land (Z.land (Z.land (Z.land t8 t7) t6) t5) t4) t3) t2 = fieldBaseMask <->
      t8 = fieldBaseMask /\ t7 = fieldBaseMask /\ t6 = fieldBaseMask /\ t5 = fieldBaseMask /\ t4 = fieldBaseMask /\ t3 = fieldBaseMask /\ t2 = fieldBaseMask).
    { rewrite !land_mask by auto 20 using land_dig. tauto. }
    rewrite LM. clear LM B Dl. unfold V1, secp_p, fieldBaseMask, fieldMSBMask, dig in *. cbn [lval]. clear -D0 D1 D2 D3' D4 D5 D6 D7 D8 Eq Bs9. lia. }
  clearbody B.
  set (cs2 := [t0 + (if B then 1 else 0) * 977; t1 + Z.shiftl (if B then 1 else 0) 6; t2; t3; t4; t5; t6; t7; t8]).
  assert (Fc2 : Forall (below (2 ^ 26 + 1000)) cs2) by (unfold cs2; rewrite shiftl6; unfold below, dig in *; repeat constructor; destruct B; lia).
  assert (Vc2 : lval cs2 = lval [t0; t1; t2; t3; t4; t5; t6; t7; t8] + (if B then 1 else 0) * 4294968273) by (unfold cs2; rewrite shiftl6; cbn [lval]; ring).
  assert (L2 : length cs2 = 9%nat) by reflexivity. clearbody cs2.
  destruct (carry_spec w32 (2 ^ 32) (2 ^ 26 + 1000) 1 cs2 w32_id ltac:(lia) ltac:(lia) 0 ltac:(lia) Fc2) as (L4 & D9 & R4 & E4).
  destruct (carry w32 0 cs2) as [s c2]. cbn [fst snd] in *. rewrite L2 in *. rewrite (w32_id (c2 + s9)), land_msb by lia.
  change (2 ^ (26 * Z.of_nat 9)) with (2 ^ 234) in *.
  assert (RS : 0 <= lval s < 2 ^ 234) by (pose proof (lval_range s D9) as LR; rewrite L4 in LR; exact LR).
  assert (EF : lval s + 2 ^ 234 * ((c2 + s9) mod 2 ^ 22) = V1 mod secp_p).
  { destruct (Z.leb_spec secp_p V1) as [Le|Lt]; subst B.
    - rewrite (Z.mod_eq (c2 + s9)) by lia. replace ((c2 + s9) / 2 ^ 22) with 1.
      2: { unfold secp_p in *. unfold V1 in *. apply (Z.div_unique _ _ _ (c2 + s9 - 2 ^ 22)); [left; lia|lia]. }
      rewrite <- (Z_mod_plus_full V1 (-1)), Z.mod_small by (unfold secp_p in *; lia). unfold V1, secp_p in *. lia.
    - rewrite (Z.mod_small V1) by lia. rewrite Z.mod_small; [unfold V1; lia|]. unfold V1, secp_p in *. lia. }
  split; [rewrite app_length, L4; reflexivity|]. pose proof (Z.mod_pos_bound (c2 + s9) (2 ^ 22) ltac:(lia)) as PB. split.
  - apply Forall_app. split; [exact D9|]. constructor; [unfold dig; lia|constructor].
  - rewrite lval_app, L4. change (2 ^ (26 * Z.of_nat 9)) with (2 ^ 234). cbn [lval]. rewrite Z.mul_0_r, Z.add_0_r, EF. cbn [fv toF]. rewrite <- (Z_mod_plus_full V1 k), <- EV. reflexivity.
Qed.
