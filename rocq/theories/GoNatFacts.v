(** GoNatFacts.v - vectors of words: carries, shifts, products, comparison, bytes. *)
From Verif Require Import Base BaseFacts Bip32 GoCodec GoNat SpecNat.

Lemma BW_eq : BW = 18446744073709551616. Proof. reflexivity. Qed.
Lemma BW_pow : BW = 2 ^ 64. Proof. reflexivity. Qed.
Lemma BW_big : 18446744073709551615 < BW. Proof. reflexivity. Qed.
Lemma val_cons : forall w x, val (w :: x) = w + BW * val x. Proof. reflexivity. Qed.
Lemma words_cons : forall w x, words (w :: x) <-> 0 <= w < BW /\ words x.
Proof. intros. split; intros H; [inversion_clear H; split; assumption|destruct H; constructor; assumption]. Qed.
Lemma words_nil : words []. Proof. constructor. Qed.
Lemma words_app : forall x y, words (x ++ y) <-> words x /\ words y.
Proof. intros. apply Forall_app. Qed.
Global Opaque BW.

(** In proofs; for bip32/utils.go:80, 116. *)
Definition pw (n : nat) : Z := BW ^ Z.of_nat n.
Lemma pw_0 : pw 0 = 1. Proof. reflexivity. Qed.
Lemma pw_S : forall n, pw (S n) = BW * pw n.
Proof. intros. unfold pw. rewrite Nat2Z.inj_succ, Z.pow_succ_r by lia. reflexivity. Qed.
Lemma pw_pos : forall n, 0 < pw n.
Proof. intros. unfold pw. apply Z.pow_pos_nonneg; [pose proof BW_big|]; lia. Qed.
Lemma pw_add : forall a b, pw (a + b) = pw a * pw b.
Proof. intros. unfold pw. rewrite Nat2Z.inj_add, Z.pow_add_r by lia. reflexivity. Qed.
Lemma val_app : forall x y, val (x ++ y) = val x + pw (length x) * val y.
Proof. induction x as [|w x IH]; intros y; cbn [app length]; [rewrite pw_0; cbn [val]; lia|]. rewrite !val_cons, IH, pw_S. ring. Qed.
Lemma val_range : forall x, words x -> 0 <= val x < pw (length x).
Proof.
  induction x as [|w x IH]; intros H; cbn [length]; [rewrite pw_0; cbn [val]; lia|]. apply words_cons in H as [Hw Hx]. specialize (IH Hx). rewrite val_cons, pw_S. nia.
Qed.
Lemma val_repeat0 : forall n, val (repeat 0 n) = 0.
Proof. induction n; cbn [repeat]; [reflexivity|]. rewrite val_cons, IHn. lia. Qed.
Lemma words_repeat0 : forall n, words (repeat 0 n).
Proof. induction n; cbn [repeat]; [constructor|]. apply words_cons. pose proof BW_big. split; [lia|assumption]. Qed.
Lemma words_firstn : forall n x, words x -> words (firstn n x).
Proof. intros n x H. rewrite <- (firstn_skipn n x) in H. apply words_app in H. apply H. Qed.
Lemma words_skipn : forall n x, words x -> words (skipn n x).
Proof. intros n x H. rewrite <- (firstn_skipn n x) in H. apply words_app in H. apply H. Qed.
Lemma ww_range : forall z, 0 <= ww z < BW.
Proof. intros. unfold ww. apply Z.mod_pos_bound. pose proof BW_big. lia. Qed.
Lemma ww_small : forall z, 0 <= z < BW -> ww z = z.
Proof. intros. unfold ww. apply Z.mod_small. lia. Qed.
Lemma ww_eq : forall z, z = BW * (z / BW) + ww z.
Proof. intros. unfold ww. apply Z.div_mod. pose proof BW_big. lia. Qed.

(** normal forms *)
Lemma val_norm : forall x, val (norm x) = val x.
Proof.
  induction x as [|w x IH]; [reflexivity|]. cbn [norm]. rewrite val_cons. destruct (norm x) as [|a r] eqn:E.
  - cbn [val] in IH. destruct (w =? 0) eqn:Z; [cbn [val]; lia|rewrite val_cons; cbn [val]; lia].
  - rewrite val_cons. lia.
Qed.
Lemma words_norm : forall x, words x -> words (norm x).
Proof.
  induction x as [|w x IH]; intros H; [exact H|]. apply words_cons in H as [Hw Hx]. specialize (IH Hx). cbn [norm]. destruct (norm x) as [|a r] eqn:E.
  - destruct (w =? 0); [constructor|]. apply words_cons. split; [assumption|constructor].
  - apply words_cons. split; assumption.
Qed.
Lemma last_norm : forall x, last (norm x) 1 <> 0.
Proof.
  induction x as [|w x IH]; [discriminate|]. cbn [norm]. destruct (norm x) as [|a r] eqn:E.
  - destruct (w =? 0) eqn:Z; [discriminate|]. cbn [last]. lia.
  - exact IH.
Qed.
Lemma norm_stands : forall x v, words x -> val x = v -> stands (norm x) v.
Proof. intros x v H E. split; [apply words_norm; exact H|]. split; [apply last_norm|]. rewrite val_norm. exact E. Qed.
Lemma stands_low : forall x v, stands x v -> x <> [] -> pw (length x - 1) <= v.
Proof.
  intros x v (W & L & E) N. subst v. destruct (exists_last N) as (y & a & ->). rewrite last_last in L. apply words_app in W as [Wy Wa]. apply words_cons in Wa as [Ha _].
  rewrite app_length, val_app, val_cons. cbn [length val]. replace (length y + 1 - 1)%nat with (length y) by lia. pose proof (val_range y Wy). pose proof (pw_pos (length y)). nia.
Qed.
Lemma val_inj : forall x y, words x -> words y -> length x = length y -> val x = val y -> x = y.
Proof.
  induction x as [|a x IH]; intros [|b y] Hx Hy L E; try discriminate L; [reflexivity|]. apply words_cons in Hx as [Ha Hx]. apply words_cons in Hy as [Hb Hy]. rewrite !val_cons in E.
  destruct (Z.div_mod_unique BW (val x) (val y) a b) as [E' ->]; [lia|lia|lia|]. f_equal. apply IH; try assumption. cbn in L. lia.
Qed.
Lemma pw_mono : forall a b, (a <= b)%nat -> pw a <= pw b.
Proof. intros a b H. unfold pw. apply Z.pow_le_mono_r; [pose proof BW_big|]; lia. Qed.
Lemma stands_len : forall x y, words x -> stands y (val x) -> (length y <= length x)%nat.
Proof.
  intros x y Wx S. destruct (list_eq_dec Z.eq_dec y []) as [->|N]; [cbn; lia|]. pose proof (stands_low _ _ S N) as L. pose proof (val_range x Wx) as R.
  destruct (Nat.le_gt_cases (length y) (length x)) as [|G]; [assumption|]. pose proof (pw_mono (length x) (length y - 1)). lia.
Qed.
Lemma stands_unique : forall x y v, stands x v -> stands y v -> x = y.
Proof.
  intros x y v Sx Sy. pose proof Sx as (Wx & Lx & Ex). pose proof Sy as (Wy & Ly & Ey). apply val_inj; try assumption; [|lia].
  apply Nat.le_antisymm; apply stands_len; try assumption; [rewrite Ey; exact Sx|rewrite Ex; exact Sy].
Qed.
Lemma stands_nil : forall x, stands x 0 -> x = [].
Proof. intros x S. apply (stands_unique x [] 0 S). split; [constructor|]. split; [discriminate|reflexivity]. Qed.
Lemma stands_nonneg : forall x v, stands x v -> 0 <= v < pw (length x).
Proof. intros x v (W & _ & <-). apply val_range. exact W. Qed.
Lemma setWord_stands : forall w, 0 <= w < BW -> stands (setWord w) w.
Proof.
  intros w H. unfold setWord. destruct (w =? 0) eqn:E; [replace w with 0 by lia; split; [constructor|]; split; [discriminate|reflexivity]|].
  split; [apply words_cons; split; [assumption|constructor]|]. split; [cbn; lia|]. rewrite val_cons. cbn [val]. lia.
Qed.

(** carries *)
Lemma bitsAdd_ok : forall x y c z c', bitsAdd x y c = (z, c') -> 0 <= x < BW -> 0 <= y < BW -> 0 <= c <= 1 -> z + BW * c' = x + y + c /\ 0 <= z < BW /\ 0 <= c' <= 1.
Proof.
  intros x y c z c' E Hx Hy Hc. unfold bitsAdd in E. injection E as <- <-. pose proof (ww_eq (x + y + c)). pose proof (ww_range (x + y + c)). split; [lia|]. split; [lia|]. nia.
Qed.
Lemma addVV_ok : forall x y c z c', addVV x y c = (z, c') -> length x = length y -> words x -> words y -> 0 <= c <= 1 ->
  val z + pw (length x) * c' = val x + val y + c /\ words z /\ length z = length x /\ 0 <= c' <= 1.
Proof.
  induction x as [|a x IH]; intros [|b y] c z c' E L Hx Hy Hc; try discriminate L.
  - injection E as <- <-. cbn [length val]. rewrite pw_0. split; [lia|]. split; [constructor|]. split; [reflexivity|lia].
  - apply words_cons in Hx as [Ha Hx]. apply words_cons in Hy as [Hb Hy]. cbn [addVV] in E. destruct (bitsAdd a b c) as [zi c1] eqn:E1. destruct (addVV x y c1) as [zs c2] eqn:E2.
    injection E as <- <-. destruct (bitsAdd_ok _ _ _ _ _ E1 Ha Hb Hc) as (A1 & A2 & A3). injection L as L. destruct (IH _ _ _ _ E2 L Hx Hy A3) as (B1 & B2 & B3 & B4).
    cbn [length]. rewrite !val_cons, pw_S. split; [|split; [apply words_cons; split; assumption|split; [congruence|exact B4]]].
    transitivity (zi + BW * (val zs + pw (length x) * c2)); [ring|]. rewrite B1. lia.
Qed.
Lemma addVW_ok : forall x c z c', addVW x c = (z, c') -> words x -> 0 <= c <= 1 -> val z + pw (length x) * c' = val x + c /\ words z /\ length z = length x /\ 0 <= c' <= 1.
Proof.
  induction x as [|a x IH]; intros c z c' E Hx Hc.
  - injection E as <- <-. cbn [length val]. rewrite pw_0. split; [lia|]. split; [constructor|]. split; [reflexivity|lia].
  - apply words_cons in Hx as [Ha Hx]. cbn [addVW] in E. destruct (bitsAdd a c 0) as [zi c1] eqn:E1. destruct (addVW x c1) as [zs c2] eqn:E2. injection E as <- <-.
    pose proof BW_big. destruct (bitsAdd_ok _ _ _ _ _ E1 Ha ltac:(lia) ltac:(lia)) as (A1 & A2 & A3). destruct (IH _ _ _ E2 Hx A3) as (B1 & B2 & B3 & B4).
    cbn [length]. rewrite !val_cons, pw_S. split; [|split; [apply words_cons; split; assumption|split; [congruence|exact B4]]].
    transitivity (zi + BW * (val zs + pw (length x) * c2)); [ring|]. rewrite B1. lia.
Qed.
Lemma bitsSub_ok : forall x y c z c', bitsSub x y c = (z, c') -> 0 <= x < BW -> 0 <= y < BW -> 0 <= c <= 1 -> z - BW * c' = x - y - c /\ 0 <= z < BW /\ 0 <= c' <= 1.
Proof.
  intros x y c z c' E Hx Hy Hc. unfold bitsSub in E. injection E as <- <-. pose proof (ww_range (x - y - c)) as R. destruct (x <? y + c) eqn:G.
  - assert (W : ww (x - y - c) = x - y - c + BW). { unfold ww. rewrite <- (Z.mod_unique (x - y - c) BW (-1) (x - y - c + BW)); lia. } rewrite W in *. lia.
  - rewrite ww_small in * by lia. lia.
Qed.
Lemma subVV_ok : forall x y c z c', subVV x y c = (z, c') -> length x = length y -> words x -> words y -> 0 <= c <= 1 ->
  val z - pw (length x) * c' = val x - val y - c /\ words z /\ length z = length x /\ 0 <= c' <= 1.
Proof.
  induction x as [|a x IH]; intros [|b y] c z c' E L Hx Hy Hc; try discriminate L.
  - injection E as <- <-. cbn [length val]. rewrite pw_0. split; [lia|]. split; [constructor|]. split; [reflexivity|lia].
  - apply words_cons in Hx as [Ha Hx]. apply words_cons in Hy as [Hb Hy]. cbn [subVV] in E. destruct (bitsSub a b c) as [zi c1] eqn:E1. destruct (subVV x y c1) as [zs c2] eqn:E2.
    injection E as <- <-. destruct (bitsSub_ok _ _ _ _ _ E1 Ha Hb Hc) as (A1 & A2 & A3). injection L as L. destruct (IH _ _ _ _ E2 L Hx Hy A3) as (B1 & B2 & B3 & B4).
    cbn [length]. rewrite !val_cons, pw_S. split; [|split; [apply words_cons; split; assumption|split; [congruence|exact B4]]].
    transitivity (zi + BW * (val zs - pw (length x) * c2)); [ring|]. rewrite B1. lia.
Qed.
Lemma subVW_ok : forall x c z c', subVW x c = (z, c') -> words x -> 0 <= c <= 1 -> val z - pw (length x) * c' = val x - c /\ words z /\ length z = length x /\ 0 <= c' <= 1.
Proof.
  induction x as [|a x IH]; intros c z c' E Hx Hc.
  - injection E as <- <-. cbn [length val]. rewrite pw_0. split; [lia|]. split; [constructor|]. split; [reflexivity|lia].
  - apply words_cons in Hx as [Ha Hx]. cbn [subVW] in E. destruct (bitsSub a c 0) as [zi c1] eqn:E1. destruct (subVW x c1) as [zs c2] eqn:E2. injection E as <- <-.
    pose proof BW_big. destruct (bitsSub_ok _ _ _ _ _ E1 Ha ltac:(lia) ltac:(lia)) as (A1 & A2 & A3). destruct (IH _ _ _ E2 Hx A3) as (B1 & B2 & B3 & B4).
    cbn [length]. rewrite !val_cons, pw_S. split; [|split; [apply words_cons; split; assumption|split; [congruence|exact B4]]].
    transitivity (zi + BW * (val zs - pw (length x) * c2)); [ring|]. rewrite B1. lia.
Qed.
Lemma bitsMul_ok : forall x y hi lo, bitsMul x y = (hi, lo) -> 0 <= x < BW -> 0 <= y < BW -> lo + BW * hi = x * y /\ 0 <= lo < BW /\ 0 <= hi < BW - 1.
Proof.
  intros x y hi lo E Hx Hy. unfold bitsMul in E. injection E as <- <-. pose proof (ww_eq (x * y)). pose proof (ww_range (x * y)). pose proof BW_big. split; [lia|]. split; [lia|].
  split; [apply Z.div_pos; nia|]. apply Z.div_lt_upper_bound; nia.
Qed.
Lemma mulAddWWW_ok : forall x y c hi lo, mulAddWWW x y c = (hi, lo) -> 0 <= x < BW -> 0 <= y < BW -> 0 <= c < BW ->
  lo + BW * hi = x * y + c /\ 0 <= lo < BW /\ 0 <= hi < BW.
Proof.
  intros x y c hi lo E Hx Hy Hc. unfold mulAddWWW in E. destruct (bitsMul x y) as [h l] eqn:E1. destruct (bitsMul_ok _ _ _ _ E1 Hx Hy) as (A1 & A2 & A3).
  destruct (bitsAdd l c 0) as [l' cc] eqn:E2. destruct (bitsAdd_ok _ _ _ _ _ E2 A2 Hc ltac:(lia)) as (B1 & B2 & B3). injection E as <- <-. rewrite ww_small by lia. lia.
Qed.
Lemma mulAddVWW_ok : forall x y c z c', mulAddVWW x y c = (z, c') -> words x -> 0 <= y < BW -> 0 <= c < BW ->
  val z + pw (length x) * c' = val x * y + c /\ words z /\ length z = length x /\ 0 <= c' < BW.
Proof.
  induction x as [|a x IH]; intros y c z c' E Hx Hy Hc.
  - injection E as <- <-. cbn [length val]. rewrite pw_0. split; [lia|]. split; [constructor|]. split; [reflexivity|lia].
  - apply words_cons in Hx as [Ha Hx]. cbn [mulAddVWW] in E. destruct (mulAddWWW a y c) as [c1 zi] eqn:E1. destruct (mulAddVWW x y c1) as [zs c2] eqn:E2. injection E as <- <-.
    destruct (mulAddWWW_ok _ _ _ _ _ E1 Ha Hy Hc) as (A1 & A2 & A3). destruct (IH _ _ _ _ E2 Hx Hy A3) as (B1 & B2 & B3 & B4).
    cbn [length]. rewrite !val_cons, pw_S. split; [|split; [apply words_cons; split; assumption|split; [congruence|exact B4]]].
    transitivity (zi + BW * (val zs + pw (length x) * c2)); [ring|]. rewrite B1. lia.
Qed.
Lemma addMulVVW_ok : forall z x y c r c', addMulVVW z x y c = (r, c') -> length z = length x -> words z -> words x -> 0 <= y < BW -> 0 <= c < BW ->
  val r + pw (length x) * c' = val z + val x * y + c /\ words r /\ length r = length x /\ 0 <= c' < BW.
Proof.
  induction z as [|a z IH]; intros [|b x] y c r c' E L Hz Hx Hy Hc; try discriminate L.
  - injection E as <- <-. cbn [length val]. rewrite pw_0. split; [lia|]. split; [constructor|]. split; [reflexivity|lia].
  - apply words_cons in Hz as [Ha Hz]. apply words_cons in Hx as [Hb Hx]. cbn [addMulVVW] in E. destruct (mulAddWWW b y a) as [z1 z0] eqn:E1.
    destruct (mulAddWWW_ok _ _ _ _ _ E1 Hb Hy Ha) as (A1 & A2 & A3). destruct (bitsAdd z0 c 0) as [lo cc] eqn:E2. destruct (bitsAdd_ok _ _ _ _ _ E2 A2 Hc ltac:(lia)) as (B1 & B2 & B3).
    assert (S : 0 <= cc + z1 < BW) by nia. rewrite (ww_small _ S) in E. destruct (addMulVVW z x y (cc + z1)) as [rs c2] eqn:E3. injection E as <- <-. injection L as L.
    destruct (IH _ _ _ _ _ E3 L Hz Hx Hy S) as (C1 & C2 & C3 & C4). cbn [length]. rewrite !val_cons, pw_S.
    split; [|split; [apply words_cons; split; assumption|split; [congruence|exact C4]]].
    transitivity (lo + BW * (val rs + pw (length x) * c2)); [ring|]. rewrite C1. lia.
Qed.
