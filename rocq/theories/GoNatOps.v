(** GoNatOps.v - sums, differences, comparison, bit operations, shifts, products and bytes of the numbers of math/big. *)
From Verif Require Import Base BaseFacts Bip32 GoCodec GoNat SpecNat GoNatFacts.

Lemma lor_shift : forall k a b, 0 <= k -> 0 <= a < 2 ^ k -> 0 <= b -> Z.lor a (Z.shiftl b k) = a + 2 ^ k * b.
Proof.
  intros k a b Hk Ha Hb. rewrite Z.shiftl_mul_pow2 by exact Hk.
  assert (L : Z.land a (b * 2 ^ k) = 0).
  { apply Z.bits_inj'. intros n Hn. rewrite Z.land_spec, Z.bits_0. destruct (Z_lt_ge_dec n k) as [Q|Q].
    - rewrite Z.mul_pow2_bits_low by lia. apply Bool.andb_false_r.
    - rewrite <- (Z.mod_small a (2 ^ k)) by exact Ha. rewrite Z.mod_pow2_bits_high by lia. reflexivity. }
  rewrite <- Z.lxor_lor by exact L. rewrite <- Z.add_nocarry_lxor by exact L. lia.
Qed.
Lemma bits_split : forall k a b i, 0 <= k -> 0 <= a < 2 ^ k -> 0 <= i -> Z.testbit (a + 2 ^ k * b) i = if i <? k then Z.testbit a i else Z.testbit b (i - k).
Proof.
  intros k a b i Hk Ha Hi. pose proof (Z.pow_pos_nonneg 2 k). destruct (i <? k) eqn:E.
  - rewrite <- (Z.mod_pow2_bits_low (a + 2 ^ k * b) k) by lia. rewrite Z.mul_comm, Z_mod_plus_full, Z.mod_small by lia. reflexivity.
  - replace i with (i - k + k) at 1 by lia. rewrite <- Z.div_pow2_bits by lia. rewrite Z.mul_comm, Z_div_plus_full by lia. rewrite Z.div_small by lia. reflexivity.
Qed.
Lemma land_range : forall k a b, 0 <= k -> 0 <= a < 2 ^ k -> 0 <= b -> 0 <= Z.land a b < 2 ^ k.
Proof.
  intros k a b Hk Ha Hb. pose proof (proj2 (Z.land_nonneg a b) ltac:(lia)) as N. split; [lia|]. destruct (Z.eq_dec (Z.land a b) 0) as [->|Nz]; [lia|].
  apply Z.log2_lt_pow2; [lia|]. pose proof (Z.log2_land a b ltac:(lia) ltac:(lia)). destruct (Z.eq_dec a 0) as [->|Na]; [cbn in Nz; lia|].
  pose proof (proj1 (Z.log2_lt_pow2 a k ltac:(lia)) ltac:(lia)). lia.
Qed.
Lemma lor_range : forall k a b, 0 <= k -> 0 <= a < 2 ^ k -> 0 <= b < 2 ^ k -> 0 <= Z.lor a b < 2 ^ k.
Proof.
  intros k a b Hk Ha Hb. pose proof (proj2 (Z.lor_nonneg a b) ltac:(lia)) as N. split; [lia|]. destruct (Z.eq_dec (Z.lor a b) 0) as [->|Nz]; [lia|].
  apply Z.log2_lt_pow2; [lia|]. rewrite Z.log2_lor by lia. pose proof (Z.pow_pos_nonneg 2 k). destruct (Z.eq_dec k 0) as [->|Nk]; [change (2 ^ 0) with 1 in *; exfalso; apply Nz; replace a with 0 by lia; replace b with 0 by lia; reflexivity|].
  assert (L : forall x, 0 <= x < 2 ^ k -> Z.log2 x < k). { intros x Hx. destruct (Z.eq_dec x 0) as [->|Nx]; [cbn; lia|]. apply Z.log2_lt_pow2; lia. }
  pose proof (L a Ha). pose proof (L b Hb). lia.
Qed.
Lemma land_split : forall k a b x y, 0 <= k -> 0 <= a < 2 ^ k -> 0 <= b < 2 ^ k -> Z.land (a + 2 ^ k * x) (b + 2 ^ k * y) = Z.land a b + 2 ^ k * Z.land x y.
Proof.
  intros k a b x y Hk Ha Hb. apply Z.bits_inj'. intros i Hi. rewrite Z.land_spec, !bits_split by (try apply land_range; lia). destruct (i <? k); rewrite Z.land_spec; reflexivity.
Qed.
Lemma lor_split : forall k a b x y, 0 <= k -> 0 <= a < 2 ^ k -> 0 <= b < 2 ^ k -> Z.lor (a + 2 ^ k * x) (b + 2 ^ k * y) = Z.lor a b + 2 ^ k * Z.lor x y.
Proof.
  intros k a b x y Hk Ha Hb. apply Z.bits_inj'. intros i Hi. rewrite Z.lor_spec, !bits_split by (try apply lor_range; lia). destruct (i <? k); rewrite Z.lor_spec; reflexivity.
Qed.
Lemma words_snoc : forall x c, words x -> 0 <= c < BW -> words (x ++ [c]).
Proof. intros x c H Hc. apply words_app. split; [exact H|]. apply words_cons. split; [exact Hc|constructor]. Qed.
Lemma val_one : forall c, val [c] = c. Proof. intros. rewrite val_cons. cbn [val]. lia. Qed.

(** sum *)
Lemma natAdd_ge : forall x y a b, (length y <= length x)%nat -> stands x a -> stands y b -> stands (match x, y with
  | [], _ => []
  | _, [] => x
  | _, _ => let n := length y in let (lo, c) := addVV (firstn n x) y 0 in let (hi, c) := addVW (skipn n x) c in norm (lo ++ hi ++ [c]) end) (a + b).
Proof.
  intros x y a b L Sx Sy. destruct x as [|x0 x]; [destruct y; [|cbn in L; lia]; destruct Sx as (? & ? & <-), Sy as (? & ? & <-); split; [constructor|]; split; [discriminate|reflexivity]|].
  destruct y as [|y0 y]; [destruct Sy as (? & ? & <-); cbn [val]; rewrite Z.add_0_r; exact Sx|]. destruct Sx as (Wx & _ & <-), Sy as (Wy & _ & <-).
  set (X := x0 :: x) in *. set (Y := y0 :: y) in *. cbv zeta. destruct (addVV (firstn (length Y) X) Y 0) as [lo c] eqn:E1. destruct (addVW (skipn (length Y) X) c) as [hi c'] eqn:E2.
  assert (Lf : length (firstn (length Y) X) = length Y) by (apply firstn_length_le; lia).
  destruct (addVV_ok _ _ _ _ _ E1 Lf (words_firstn _ _ Wx) Wy ltac:(lia)) as (A1 & A2 & A3 & A4). destruct (addVW_ok _ _ _ _ E2 (words_skipn _ _ Wx) A4) as (B1 & B2 & B3 & B4).
  pose proof BW_big. apply norm_stands; [apply words_app; split; [exact A2|]; apply words_snoc; [exact B2|lia]|].
  rewrite !val_app, val_one, A3, B3. rewrite <- (firstn_skipn (length Y) X) at 3. rewrite val_app. rewrite !Lf in *.
  transitivity (val lo + pw (length Y) * (val hi + pw (length (skipn (length Y) X)) * c')); [ring|]. rewrite B1. lia.
Qed.
Lemma natAdd_ok : forall x y a b, stands x a -> stands y b -> stands (natAdd x y) (a + b).
Proof.
  intros x y a b Sx Sy. unfold natAdd. destruct (length x <? length y)%nat eqn:E.
  - apply Nat.ltb_lt in E. rewrite Z.add_comm. apply natAdd_ge; [lia|assumption|assumption].
  - apply Nat.ltb_ge in E. apply natAdd_ge; assumption.
Qed.
(** difference *)
Lemma natSub_ok : forall x y a b, stands x a -> stands y b -> b <= a -> exists z, natSub x y = Ret z /\ stands z (a - b).
Proof.
  intros x y a b Sx Sy Le. unfold natSub. destruct (length x <? length y)%nat eqn:E.
  { apply Nat.ltb_lt in E. exfalso. assert (N : y <> []) by (destruct y; [cbn in E; lia|discriminate]). pose proof (stands_low _ _ Sy N). pose proof (stands_nonneg _ _ Sx).
    pose proof (pw_mono (length x) (length y - 1)). lia. }
  apply Nat.ltb_ge in E. destruct x as [|x0 x]; [exists []; split; [reflexivity|]; destruct y; [|cbn in E; lia]; destruct Sx as (? & ? & <-), Sy as (? & ? & <-); split; [constructor|]; split; [discriminate|reflexivity]|].
  destruct y as [|y0 y]; [exists (x0 :: x); split; [reflexivity|]; destruct Sy as (? & ? & <-); cbn [val]; rewrite Z.sub_0_r; exact Sx|]. destruct Sx as (Wx & _ & Ex), Sy as (Wy & _ & Ey).
  set (X := x0 :: x) in *. set (Y := y0 :: y) in *. cbv zeta. destruct (subVV (firstn (length Y) X) Y 0) as [lo c] eqn:E1. destruct (subVW (skipn (length Y) X) c) as [hi c'] eqn:E2.
  assert (Lf : length (firstn (length Y) X) = length Y) by (apply firstn_length_le; lia).
  destruct (subVV_ok _ _ _ _ _ E1 Lf (words_firstn _ _ Wx) Wy ltac:(lia)) as (A1 & A2 & A3 & A4). destruct (subVW_ok _ _ _ _ E2 (words_skipn _ _ Wx) A4) as (B1 & B2 & B3 & B4).
  assert (VX : val X = val (firstn (length Y) X) + pw (length Y) * val (skipn (length Y) X)) by (rewrite <- (firstn_skipn (length Y) X) at 1; rewrite val_app, Lf; reflexivity).
  assert (V : val (lo ++ hi) - pw (length (lo ++ hi)) * c' = a - b).
  { rewrite app_length, pw_add, val_app, A3, B3, <- Ex, <- Ey, VX. rewrite !Lf in *.
    transitivity (val lo + pw (length Y) * (val hi - pw (length (skipn (length Y) X)) * c')); [ring|]. rewrite B1. lia. }
  assert (W : words (lo ++ hi)) by (apply words_app; split; assumption). pose proof (val_range _ W) as R.
  assert (c' = 0) by nia. subst c'. cbn [Z.eqb]. eexists. split; [reflexivity|]. apply norm_stands; [exact W|lia].
Qed.
(** comparison *)
Lemma cmp_loop_ok : forall x y, length x = length y -> words x -> words y -> cmp_loop x y = match val (rev x) ?= val (rev y) with Lt => -1 | Eq => 0 | Gt => 1 end.
Proof.
  induction x as [|a x IH]; intros [|b y] L Hx Hy; try discriminate L; [reflexivity|]. apply words_cons in Hx as [Ha Hx]. apply words_cons in Hy as [Hb Hy]. injection L as L.
  cbn [cmp_loop rev]. rewrite !val_app, !val_one, !rev_length, L. assert (Rx : words (rev x)) by (apply Forall_rev; exact Hx). assert (Ry : words (rev y)) by (apply Forall_rev; exact Hy).
  pose proof (val_range _ Rx) as R1. pose proof (val_range _ Ry) as R2. rewrite rev_length in R1, R2. rewrite L in R1. pose proof (pw_pos (length y)).
  destruct (a <? b) eqn:E1; [destruct (Z.compare_spec (val (rev x) + pw (length y) * a) (val (rev y) + pw (length y) * b)); nia|].
  destruct (b <? a) eqn:E2; [destruct (Z.compare_spec (val (rev x) + pw (length y) * a) (val (rev y) + pw (length y) * b)); nia|].
  replace b with a by lia. rewrite (IH _ L Hx Hy). destruct (Z.compare_spec (val (rev x)) (val (rev y))), (Z.compare_spec (val (rev x) + pw (length y) * a) (val (rev y) + pw (length y) * a)); lia.
Qed.
Lemma natCmp_words : forall x y, length x = length y -> words x -> words y -> natCmp x y = match val x ?= val y with Lt => -1 | Eq => 0 | Gt => 1 end.
Proof.
  intros x y L Hx Hy. unfold natCmp. rewrite L, Nat.ltb_irrefl. rewrite cmp_loop_ok, !rev_involutive; [reflexivity|rewrite !rev_length; exact L|apply Forall_rev; exact Hx|apply Forall_rev; exact Hy].
Qed.
Lemma natCmp_ok : forall x y a b, stands x a -> stands y b -> natCmp x y = match a ?= b with Lt => -1 | Eq => 0 | Gt => 1 end.
Proof.
  assert (G : forall x y a b, stands x a -> stands y b -> (length x < length y)%nat -> a < b).
  { intros x y a b Sx Sy L. assert (N : y <> []) by (destruct y; [cbn in L; lia|discriminate]). pose proof (stands_low _ _ Sy N). pose proof (stands_nonneg _ _ Sx).
    pose proof (pw_mono (length x) (length y - 1)). lia. }
  intros x y a b Sx Sy. destruct (lt_eq_lt_dec (length x) (length y)) as [[L|L]|L].
  - pose proof (G _ _ _ _ Sx Sy L). unfold natCmp. rewrite (proj2 (Nat.ltb_lt _ _) L). destruct (Z.compare_spec a b); lia.
  - destruct Sx as (Wx & _ & <-), Sy as (Wy & _ & <-). apply natCmp_words; assumption.
  - pose proof (G _ _ _ _ Sy Sx L). unfold natCmp. rewrite (proj2 (Nat.ltb_ge _ _)) by lia. rewrite (proj2 (Nat.ltb_lt _ _) L). destruct (Z.compare_spec a b); lia.
Qed.
(** bit operations *)
Lemma and_val : forall x y, words x -> words y -> val (map (fun p => Z.land (fst p) (snd p)) (combine x y)) = Z.land (val x) (val y) /\
  words (map (fun p => Z.land (fst p) (snd p)) (combine x y)).
Proof.
  induction x as [|a x IH]; intros [|b y] Hx Hy; cbn [combine map]; try (split; [cbn [val]; rewrite ?Z.land_0_r; reflexivity|constructor]).
  apply words_cons in Hx as [Ha Hx]. apply words_cons in Hy as [Hb Hy]. destruct (IH y Hx Hy) as [E W]. cbn [fst snd]. rewrite !val_cons, E. rewrite BW_pow in *.
  split; [symmetry; apply land_split; lia|]. apply words_cons. rewrite BW_pow. split; [apply land_range; lia|exact W].
Qed.
Lemma natAnd_ok : forall x y a b, stands x a -> stands y b -> stands (natAnd x y) (Z.land a b).
Proof. intros x y a b (Wx & _ & <-) (Wy & _ & <-). destruct (and_val x y Wx Wy) as [E W]. apply norm_stands; assumption. Qed.
Lemma or_val : forall x y, (length y <= length x)%nat -> words x -> words y ->
  val (map (fun p => Z.lor (fst p) (snd p)) (combine x y) ++ skipn (length y) x) = Z.lor (val x) (val y) /\
  words (map (fun p => Z.lor (fst p) (snd p)) (combine x y) ++ skipn (length y) x).
Proof.
  induction x as [|a x IH]; intros [|b y] L Hx Hy; cbn [combine map app length skipn] in *; try (cbn in L; lia); try (split; [cbn [val]; rewrite ?Z.lor_0_r; reflexivity|assumption]).
  apply words_cons in Hx as [Ha Hx]. apply words_cons in Hy as [Hb Hy]. destruct (IH y ltac:(lia) Hx Hy) as [E W]. cbn [fst snd]. rewrite !val_cons, E. rewrite BW_pow in *.
  split; [symmetry; apply lor_split; lia|]. apply words_cons. rewrite BW_pow. split; [apply lor_range; lia|exact W].
Qed.
Lemma natOr_ok : forall x y a b, stands x a -> stands y b -> stands (natOr x y) (Z.lor a b).
Proof.
  intros x y a b (Wx & _ & <-) (Wy & _ & <-). unfold natOr. destruct (length x <? length y)%nat eqn:E.
  - apply Nat.ltb_lt in E. destruct (or_val y x ltac:(lia) Wy Wx) as [Q W]. rewrite Z.lor_comm. apply norm_stands; assumption.
  - apply Nat.ltb_ge in E. destruct (or_val x y E Wx Wy) as [Q W]. apply norm_stands; assumption.
Qed.
(** shifts *)
Lemma shl_word : forall w s, 0 < s < 64 -> 0 <= w < BW -> w * 2 ^ s = ww (Z.shiftl w s) + BW * Z.shiftr w (64 - s) /\
  exists k, 0 <= k /\ ww (Z.shiftl w s) = 2 ^ s * k /\ 2 ^ s * k + 2 ^ s <= BW.
Proof.
  intros w s Hs Hw. rewrite Z.shiftl_mul_pow2, Z.shiftr_div_pow2 by lia. assert (P : BW = 2 ^ (64 - s) * 2 ^ s) by (rewrite BW_pow, <- Z.pow_add_r by lia; f_equal; lia).
  pose proof (Z.pow_pos_nonneg 2 s ltac:(lia) ltac:(lia)). pose proof (Z.pow_pos_nonneg 2 (64 - s) ltac:(lia) ltac:(lia)).
  unfold ww. rewrite P. rewrite Zmult_mod_distr_r. pose proof (Z.div_mod w (2 ^ (64 - s)) ltac:(lia)) as D. pose proof (Z.mod_pos_bound w (2 ^ (64 - s)) ltac:(lia)) as M.
  split; [rewrite D at 1; ring|]. exists (w mod 2 ^ (64 - s)). split; [lia|]. split; [ring|]. nia.
Qed.
Lemma shlVU_loop_ok : forall x s below z c, 0 < s < 64 -> words x -> 0 <= below < BW -> shlVU_loop x s below = (z, c) ->
  val z + pw (length x) * c = val x * 2 ^ s + Z.shiftr below (64 - s) /\ words z /\ length z = length x /\ 0 <= c < 2 ^ s.
Proof.
  induction x as [|w x IH]; intros s below z c Hs Wx Hb E.
  - change (([], Z.shiftr below (64 - s)) = (z, c)) in E. assert (Ec : c = Z.shiftr below (64 - s)) by congruence. assert (Ez : z = []) by congruence. clear E. subst z c. cbn [length val]. rewrite pw_0. split; [ring|]. split; [constructor|]. split; [reflexivity|]. rewrite Z.shiftr_div_pow2 by lia.
    split; [apply Z.div_pos; [lia|apply Z.pow_pos_nonneg; lia]|]. apply Z.div_lt_upper_bound; [apply Z.pow_pos_nonneg; lia|]. rewrite <- Z.pow_add_r by lia. replace (64 - s + s) with 64 by lia. rewrite <- BW_pow. lia.
  - apply words_cons in Wx as [Hw Wx]. cbn [shlVU_loop] in E. destruct (shlVU_loop x s w) as [zs c1] eqn:E1. assert (Ez : z = Z.lor (ww (Z.shiftl w s)) (Z.shiftr below (64 - s)) :: zs) by congruence. assert (Ec : c = c1) by congruence. clear E. subst z c. destruct (IH _ _ _ _ Hs Wx Hw E1) as (B1 & B2 & B3 & B4).
    destruct (shl_word w s Hs Hw) as (A1 & k & K0 & K1 & K2).
    assert (Lb : 0 <= Z.shiftr below (64 - s) < 2 ^ s).
    { rewrite Z.shiftr_div_pow2 by lia. split; [apply Z.div_pos; [lia|apply Z.pow_pos_nonneg; lia]|]. apply Z.div_lt_upper_bound; [apply Z.pow_pos_nonneg; lia|]. rewrite <- Z.pow_add_r by lia.
      replace (64 - s + s) with 64 by lia. rewrite <- BW_pow. lia. }
    assert (O : Z.lor (ww (Z.shiftl w s)) (Z.shiftr below (64 - s)) = ww (Z.shiftl w s) + Z.shiftr below (64 - s)).
    { rewrite Z.lor_comm, K1. replace (2 ^ s * k) with (Z.shiftl k s) at 1 by (rewrite Z.shiftl_mul_pow2 by lia; ring). rewrite lor_shift by lia. ring. }
    rewrite O. cbn [length]. rewrite !val_cons, pw_S. split; [|split; [apply words_cons; split; [lia|exact B2]|split; [congruence|exact B4]]].
    transitivity (ww (Z.shiftl w s) + Z.shiftr below (64 - s) + BW * (val zs + pw (length x) * c1)); [ring|]. rewrite B1.
    transitivity (ww (Z.shiftl w s) + BW * Z.shiftr w (64 - s) + BW * (val x * 2 ^ s) + Z.shiftr below (64 - s)); [ring|]. rewrite <- A1. ring.
Qed.
Lemma shlVU_ok : forall x s z c, 0 <= s < 64 -> words x -> shlVU x s = (z, c) -> val z + pw (length x) * c = val x * 2 ^ s /\ words z /\ length z = length x /\ 0 <= c < 2 ^ s.
Proof.
  intros x s z c Hs Wx E. unfold shlVU in E. destruct (s =? 0) eqn:E0.
  - injection E as <- <-. replace s with 0 by lia. change (2 ^ 0) with 1. split; [lia|]. split; [exact Wx|]. split; [reflexivity|lia].
  - pose proof BW_big. destruct (shlVU_loop_ok x s 0 z c ltac:(lia) Wx ltac:(lia) E) as (A & Rest). rewrite Z.shiftr_0_l in A. split; [lia|exact Rest].
Qed.
Lemma shr_lt : forall w s, 0 < s < 64 -> 0 <= w < BW -> 0 <= Z.shiftr w s < 2 ^ (64 - s).
Proof.
  intros w s Hs Hw. rewrite Z.shiftr_div_pow2 by lia. split; [apply Z.div_pos; [lia|apply Z.pow_pos_nonneg; lia]|]. apply Z.div_lt_upper_bound; [apply Z.pow_pos_nonneg; lia|].
  rewrite <- Z.pow_add_r by lia. replace (s + (64 - s)) with 64 by lia. rewrite <- BW_pow. lia.
Qed.
Lemma shrVU_loop_ok : forall x s, 0 < s < 64 -> words x -> val (shrVU_loop x s) = val x / 2 ^ s /\ words (shrVU_loop x s) /\ length (shrVU_loop x s) = length x.
Proof.
  induction x as [|w x IH]; intros s Hs Wx; [split; [reflexivity|split; [constructor|reflexivity]]|]. apply words_cons in Wx as [Hw Wx]. destruct (IH s Hs Wx) as (B1 & B2 & B3). cbn [shrVU_loop].
  pose proof (Z.pow_pos_nonneg 2 s ltac:(lia) ltac:(lia)) as P. assert (PW : BW = 2 ^ (64 - s) * 2 ^ s) by (rewrite BW_pow, <- Z.pow_add_r by lia; f_equal; lia).
  set (n := match x with w1 :: _ => ww (Z.shiftl w1 (64 - s)) | [] => 0 end).
  assert (N : exists k, 0 <= k < 2 ^ s /\ n = 2 ^ (64 - s) * k /\ val x mod 2 ^ s = k).
  { subst n. destruct x as [|w1 x]; [exists 0; split; [lia|]; split; [lia|apply Zmod_0_l]|]. apply words_cons in Wx as [Hw1 Wx].
    exists (w1 mod 2 ^ s). split; [apply Z.mod_pos_bound; lia|]. split.
    - rewrite Z.shiftl_mul_pow2 by lia. unfold ww. rewrite PW, (Z.mul_comm (2 ^ (64 - s)) (2 ^ s)), Zmult_mod_distr_r. ring.
    - rewrite val_cons, PW. replace (w1 + 2 ^ (64 - s) * 2 ^ s * val x) with (w1 + 2 ^ (64 - s) * val x * 2 ^ s) by ring. apply Z_mod_plus_full. }
  destruct N as (k & K0 & K1 & K2). pose proof (shr_lt w s Hs Hw) as R.
  assert (O : Z.lor (Z.shiftr w s) n = Z.shiftr w s + n). { rewrite K1. replace (2 ^ (64 - s) * k) with (Z.shiftl k (64 - s)) at 1 by (rewrite Z.shiftl_mul_pow2 by lia; ring). apply lor_shift; lia. }
  rewrite O. rewrite !val_cons, B1. split; [|split; [apply words_cons; split; [|exact B2]|cbn [length]; congruence]].
  - rewrite (Z.div_mod (val x) (2 ^ s)) at 2 by lia. rewrite K2. rewrite Z.shiftr_div_pow2 by lia. rewrite K1.
    replace (w + BW * (2 ^ s * (val x / 2 ^ s) + k)) with (w + (BW * (val x / 2 ^ s) + 2 ^ (64 - s) * k) * 2 ^ s) by (rewrite PW; ring). rewrite Z_div_plus_full by lia. ring.
  - rewrite K1, PW. nia.
Qed.
Lemma shrVU_ok : forall x s, 0 <= s < 64 -> words x -> val (shrVU x s) = val x / 2 ^ s /\ words (shrVU x s) /\ length (shrVU x s) = length x.
Proof.
  intros x s Hs Wx. unfold shrVU. destruct (s =? 0) eqn:E; [|apply shrVU_loop_ok; [lia|exact Wx]]. replace s with 0 by lia. change (2 ^ 0) with 1. rewrite Z.div_1_r. split; [reflexivity|split; [exact Wx|reflexivity]].
Qed.
Lemma pw_shift : forall s, 0 <= s -> pw (Z.to_nat (s / 64)) * 2 ^ (s mod 64) = 2 ^ s.
Proof.
  intros s Hs. pose proof (Z.div_mod s 64 ltac:(lia)) as D. pose proof (Z.mod_pos_bound s 64 ltac:(lia)). pose proof (Z.div_pos s 64 Hs ltac:(lia)). unfold pw. rewrite Z2Nat.id by lia. rewrite BW_pow, <- Z.pow_mul_r, <- Z.pow_add_r by lia.
  f_equal. lia.
Qed.
Lemma natShl_ok : forall x s a, 0 <= s -> stands x a -> stands (natShl x s) (a * 2 ^ s).
Proof.
  intros x s a Hs Sx. unfold natShl. destruct (s =? 0) eqn:E; [replace s with 0 by lia; change (2 ^ 0) with 1; rewrite Z.mul_1_r; exact Sx|]. destruct x as [|x0 x]; [destruct Sx as (? & ? & <-); split; [constructor|split; [discriminate|reflexivity]]|].
  destruct Sx as (Wx & _ & <-). set (X := x0 :: x) in *. pose proof (Z.mod_pos_bound s 64 ltac:(lia)) as M. destruct (shlVU X (s mod 64)) as [z c] eqn:E1. destruct (shlVU_ok _ _ _ _ M Wx E1) as (A1 & A2 & A3 & A4).
  assert (C : 0 <= c < BW). { pose proof (Z.pow_le_mono_r 2 (s mod 64) 64 ltac:(lia) ltac:(lia)). rewrite <- BW_pow in *. lia. }
  apply norm_stands; [apply words_app; split; [apply words_repeat0|apply words_snoc; assumption]|]. rewrite !val_app, val_repeat0, repeat_length, val_one, A3, A1, <- (pw_shift s Hs). ring.
Qed.
Lemma natShr_ok : forall x s a, 0 <= s -> stands x a -> stands (natShr x s) (a / 2 ^ s).
Proof.
  intros x s a Hs Sx. unfold natShr. destruct (s =? 0) eqn:E; [replace s with 0 by lia; change (2 ^ 0) with 1; rewrite Z.div_1_r; exact Sx|].
  pose proof (Z.mod_pos_bound s 64 ltac:(lia)) as M. pose proof (Z.div_pos s 64 Hs ltac:(lia)) as Dp. pose proof (stands_nonneg _ _ Sx) as R. pose proof (Z.pow_pos_nonneg 2 s ltac:(lia) ltac:(lia)) as P2.
  pose proof (pw_shift s Hs) as PS. pose proof (Z.pow_pos_nonneg 2 (s mod 64) ltac:(lia) ltac:(lia)) as P3. pose proof (pw_pos (Z.to_nat (s / 64))) as P4.
  destruct (Z.of_nat (length x) <=? s / 64) eqn:L.
  - rewrite Z.div_small; [split; [constructor|split; [discriminate|reflexivity]]|]. pose proof (pw_mono (length x) (Z.to_nat (s / 64)) ltac:(lia)). nia.
  - destruct Sx as (Wx & _ & <-). destruct (shrVU_ok _ _ M (words_skipn (Z.to_nat (s / 64)) _ Wx)) as (A1 & A2 & A3). apply norm_stands; [exact A2|]. rewrite A1, <- PS.
    rewrite <- Z.div_div by lia. f_equal. set (k := Z.to_nat (s / 64)) in *. assert (Lk : length (firstn k x) = k) by (apply firstn_length_le; lia).
    rewrite <- (firstn_skipn k x) at 2. rewrite val_app, Lk. rewrite Z.mul_comm, Z_div_plus_full by lia. pose proof (val_range _ (words_firstn k x Wx)). rewrite Lk in *. rewrite Z.div_small by lia. lia.
Qed.
(** products *)
Lemma mulAddWW_ok : forall x a y r, stands x a -> 0 <= y < BW -> 0 <= r < BW -> stands (mulAddWW x y r) (a * y + r).
Proof.
  intros x a y r Sx Hy Hr. unfold mulAddWW. destruct x as [|x0 x]; [destruct Sx as (? & ? & <-); cbn [val]; apply setWord_stands; lia|]. destruct (y =? 0) eqn:E; [replace (a * y + r) with r by nia; apply setWord_stands; lia|].
  destruct (mulAddVWW (x0 :: x) y r) as [z c] eqn:E1. destruct Sx as (Wx & _ & <-). destruct (mulAddVWW_ok _ _ _ _ _ E1 Wx Hy Hr) as (A1 & A2 & A3 & A4).
  apply norm_stands; [apply words_snoc; assumption|]. rewrite val_app, val_one, A3. exact A1.
Qed.
Lemma skipn_nth : forall (z : list Z) n, (n < length z)%nat -> skipn n z = nth n z 0 :: skipn (S n) z.
Proof. induction z as [|a z IH]; intros n L; [cbn in L; lia|]. destruct n; [reflexivity|]. change (skipn (S n) (a :: z)) with (skipn n z). rewrite IH by (cbn in L; lia). reflexivity. Qed.
Lemma basicMul_loop_ok : forall y x z, words x -> words y -> words z -> (length x + length y <= length z)%nat -> val z < pw (length x) ->
  val (basicMul_loop z x y) = val z + val x * val y /\ words (basicMul_loop z x y).
Proof.
  induction y as [|d y IH]; intros x z Wx Wy Wz L B; cbn [basicMul_loop]; [cbn [val]; split; [lia|exact Wz]|]. apply words_cons in Wy as [Hd Wy]. cbn [length] in L.
  set (z' := if d =? 0 then z else _). assert (Z' : val z' = val z + val x * d /\ words z' /\ length z' = length z /\ val z' < pw (S (length x))).
  { assert (R : forall v, 0 <= v -> v < pw (length x) -> v + val x * d < pw (S (length x))). { intros v H0 Hv. pose proof (val_range x Wx). rewrite pw_S. nia. }
    subst z'. pose proof (val_range z Wz) as Rz. destruct (d =? 0) eqn:E; [replace d with 0 by lia; specialize (R _ (proj1 Rz) B); replace d with 0 in R by lia; split; [lia|]; split; [exact Wz|]; split; [reflexivity|lia]|].
    set (n := length x) in *. destruct (addMulVVW (firstn n z) x d 0) as [lo c] eqn:E1. assert (Lf : length (firstn n z) = length x) by (apply firstn_length_le; lia).
    pose proof BW_big. destruct (addMulVVW_ok _ _ _ _ _ _ E1 Lf (words_firstn _ _ Wz) Wx Hd ltac:(lia)) as (A1 & A2 & A3 & A4).
    assert (Vz : val z = val (firstn n z) + pw n * val (skipn n z)) by (rewrite <- (firstn_skipn n z) at 1; rewrite val_app, Lf; reflexivity).
    assert (S0 : val (skipn n z) = 0). { pose proof (val_range _ (words_firstn n z Wz)). pose proof (val_range _ (words_skipn n z Wz)). rewrite Lf in *. fold n in B. pose proof (pw_pos n). nia. }
    assert (S1 : val (skipn (S n) z) = 0).
    { pose proof (skipn_nth z n ltac:(lia)) as Q.
      rewrite Q, val_cons in S0. pose proof (words_skipn n z Wz) as Wq. rewrite Q in Wq. apply words_cons in Wq as [Hq Wq]. pose proof (val_range _ Wq). nia. }
    assert (V : val (lo ++ [c] ++ skipn (S n) z) = val z + val x * d). { rewrite !val_app, A3, val_one, S1, Vz, S0. rewrite !Z.mul_0_r, !Z.add_0_r. rewrite Z.add_0_r in A1. exact A1. }
    rewrite V. split; [reflexivity|]. split; [apply words_app; split; [exact A2|]; apply words_cons; split; [lia|apply words_skipn; exact Wz]|].
    split; [rewrite !app_length, skipn_length, A3; cbn [length]; fold n; lia|]. apply R; [lia|exact B]. }
  clearbody z'. destruct Z' as (V & W & Lz & Bz). destruct z' as [|z0 z'']; [cbn in Lz; lia|]. apply words_cons in W as [H0 W]. rewrite val_cons in V, Bz. cbn [length] in Lz. rewrite pw_S in Bz.
  pose proof (val_range _ W) as R. destruct (IH x z'' Wx Wy W ltac:(lia) ltac:(nia)) as [I1 I2]. rewrite !val_cons, I1. split; [|apply words_cons; split; assumption].
  transitivity (z0 + BW * val z'' + BW * (val x * val y)); [ring|]. rewrite V. ring.
Qed.
Lemma basicMul_ok : forall x y, words x -> words y -> val (basicMul x y) = val x * val y /\ words (basicMul x y).
Proof.
  intros x y Wx Wy. unfold basicMul. destruct (basicMul_loop_ok y x (repeat 0 (length x + length y)) Wx Wy (words_repeat0 _)) as [A1 A2]; [rewrite repeat_length; lia|rewrite val_repeat0; apply pw_pos|].
  rewrite val_repeat0 in A1. split; [lia|exact A2].
Qed.
