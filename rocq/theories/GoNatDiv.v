(** GoNatDiv.v - division of the numbers of math/big: a vector by a word, Knuth's algorithm D. *)
From Verif Require Import Base BaseFacts Bip32 GoCodec GoNat SpecNat GoNatFacts GoNatOps GoNatWW.

(** a vector by a word *)
Lemma divWVW_loop_ok : forall x r y m z, 0 < y < BW -> reciprocalWord y = Ret m -> words x -> 0 <= r < y ->
  exists q r', divWVW_loop x r y m z = (q ++ z, r') /\ words q /\ length q = length x /\ val (rev x) + pw (length x) * r = val q * y + r' /\ 0 <= r' < y.
Proof.
  induction x as [|xi x IH]; intros r y m z Hy Em Wx Hr.
  - exists [], r. cbn [divWVW_loop rev length app val]. rewrite pw_0. repeat split; try lia. exact words_nil.
  - destruct (proj1 (words_cons _ _) Wx) as [Wi Wt]. cbn [divWVW_loop]. rewrite (divWW_ok y r xi m Hy Em Hr Wi).
    pose proof (Z.mod_pos_bound (r * BW + xi) y ltac:(lia)) as MB. pose proof (Z.div_mod (r * BW + xi) y ltac:(lia)) as DM.
    set (d := (r * BW + xi) / y) in *. set (r1 := (r * BW + xi) mod y) in *.
    assert (D : 0 <= d < BW). { split; [apply Z.div_pos; nia|]. apply Z.div_lt_upper_bound; nia. }
    destruct (IH r1 y m (d :: z) Hy Em Wt MB) as (q & r' & E & W & L & V & R). exists (q ++ [d]), r'. rewrite E, <- app_assoc. split; [reflexivity|].
    split; [apply words_snoc; assumption|]. split; [rewrite app_length; cbn [length]; lia|]. split; [|exact R].
    cbn [rev length]. rewrite val_app, rev_length, val_app, val_one, val_one, L, pw_S. rewrite Z.mul_add_distr_r.
    transitivity (val (rev x) + pw (length x) * (r * BW + xi)); [ring|]. rewrite DM.
    transitivity (val (rev x) + pw (length x) * r1 + pw (length x) * d * y); [ring|]. rewrite V. ring.
Qed.
Lemma div_mod_is : forall a b q r, a = q * b + r -> 0 <= r < b -> q = a / b /\ r = a mod b.
Proof. intros a b q r E H. split; [apply (Z.div_unique a b q r)|apply (Z.mod_unique a b q r)]; lia. Qed.
Lemma divWVW_ok : forall x y, 0 < y < BW -> words x -> exists q, divWVW x y = Ret (q, val x mod y) /\ words q /\ val q = val x / y.
Proof.
  intros x y Hy Wx. destruct (list_eq_dec Z.eq_dec x []) as [->|Nx].
  - unfold divWVW. destruct (reciprocal_ok y Hy) as (m & Em & _). rewrite Em. cbn [bind rev divWVW_loop val]. exists []. rewrite Z.mod_0_l, Z.div_0_l by lia. repeat split. exact words_nil.
  - destruct x as [|x0 [|x1 x]]; [congruence| |].
    + unfold divWVW, bitsDiv. destruct (proj1 (words_cons _ _) Wx) as [W0 _]. replace ((y =? 0) || (y <=? 0)) with false by lia. cbn [bind]. rewrite Z.mul_0_l, Z.add_0_l, val_one.
      exists [x0 / y]. split; [reflexivity|]. split; [|apply val_one]. apply words_cons. split; [|exact words_nil]. split; [apply Z.div_pos; lia|]. apply Z.div_lt_upper_bound; nia.
    + destruct (reciprocal_ok y Hy) as (m & Em & _). change (divWVW (x0 :: x1 :: x) y) with (bind (reciprocalWord y) (fun rec => Ret (divWVW_loop (rev (x0 :: x1 :: x)) 0 y rec []))). rewrite Em. cbn [bind].
      destruct (divWVW_loop_ok (rev (x0 :: x1 :: x)) 0 y m [] Hy Em) as (q & r & E & W & L & V & R); [apply Forall_rev; exact Wx|lia|]. rewrite E, app_nil_r. rewrite rev_involutive, Z.mul_0_r, Z.add_0_r in V.
      destruct (div_mod_is _ _ _ _ V R) as [-> ->] || destruct (div_mod_is _ _ _ _ V R) as [A B]. exists q. rewrite <- B. repeat split; assumption.
Qed.
Lemma divW_ok : forall x a y, stands x a -> 0 < y < BW -> exists q, divW x y = Ret (q, a mod y) /\ stands q (a / y).
Proof.
  intros x a y S Hy. unfold divW. replace (y =? 0) with false by lia. destruct (y =? 1) eqn:E1.
  - assert (y = 1) by lia. subst y. exists x. rewrite Z.mod_1_r, Z.div_1_r. split; [reflexivity|exact S].
  - destruct S as (W & N & V). destruct x as [|x0 x].
    + cbn [val] in V. subst a. exists []. rewrite Z.mod_0_l, Z.div_0_l by lia. split; [reflexivity|]. split; [exact words_nil|]. split; [cbn; lia|reflexivity].
    + destruct (divWVW_ok (x0 :: x) y Hy W) as (q & E & Wq & Vq). rewrite E, V. cbn [bind]. exists (norm q). split; [reflexivity|]. apply norm_stands; [exact Wq|]. rewrite Vq, V. reflexivity.
Qed.

(** the guess from three words of the number and two of the divisor *)
Lemma two_words_lt : forall W a b c d, 0 <= b < W -> 0 <= d < W -> ((a < c \/ (c = a /\ b < d)) <-> a * W + b < c * W + d).
Proof. intros W a b c d Hb Hd. split; intro H; [destruct H as [H|[-> H]]; nia|]. destruct (Z.lt_trichotomy a c) as [L|[L|L]]; [left; exact L|subst; lia|exfalso; nia]. Qed.
Lemma lower_more : forall W q r vn1 vn2 u2, 0 < W -> 0 <= vn2 < W -> 0 <= q < W -> 0 <= u2 -> W <= r + vn1 -> (q - 1) * (vn1 * W + vn2) <= (q * vn1 + r) * W + u2.
Proof.
  intros W q r vn1 vn2 u2 HW H2 Hq Hu Hr. assert (A : q * vn2 <= W * W) by nia. assert (B : W * W <= (r + vn1) * W) by nia.
  replace ((q - 1) * (vn1 * W + vn2)) with (q * vn1 * W + q * vn2 - vn1 * W - vn2) by ring. replace ((q * vn1 + r) * W + u2) with (q * vn1 * W + (r + vn1) * W - vn1 * W + u2) by ring. lia.
Qed.
Lemma refine_ok : forall fuel qhat rhat vn1 vn2 u2 T, 0 < vn1 < BW -> 0 <= vn2 < BW -> 0 <= u2 < BW -> 0 <= qhat < BW -> 0 <= rhat < BW ->
  qhat * vn1 + rhat = T -> (T * BW + u2) / (vn1 * BW + vn2) <= qhat -> BW <= rhat + Z.of_nat fuel * vn1 -> refine fuel qhat rhat vn1 vn2 u2 = Ret ((T * BW + u2) / (vn1 * BW + vn2)).
Proof.
  induction fuel as [|fuel IH]; intros qhat rhat vn1 vn2 u2 T H1 H2 Hu Hq Hr ET Hle Hf; [lia|].
  pose proof BW_big as BB. set (V2 := vn1 * BW + vn2) in *. set (U3 := T * BW + u2) in *. assert (PV : 0 < V2) by (subst V2; clear - H1 H2 BB; nia). assert (PT : 0 <= T) by (rewrite <- ET; clear - H1 Hq Hr; nia). assert (PU : 0 <= U3) by (subst U3; clear - PT Hu BB; nia).
  pose proof (Z.div_pos U3 V2 PU PV) as D0.
  cbn [refine]. destruct (bitsMul qhat vn2) as [x1 x2] eqn:EM. destruct (bitsMul_ok _ _ _ _ EM Hq H2) as (A1 & A2 & A3).
  assert (C : (rhat <? x1) || ((x1 =? rhat) && (u2 <? x2)) = (U3 <? qhat * V2)).
  { apply Bool.eq_iff_eq_true. rewrite Bool.orb_true_iff, Bool.andb_true_iff, !Z.ltb_lt, Z.eqb_eq. rewrite (two_words_lt BW rhat u2 x1 x2 Hu A2).
    assert (I : qhat * V2 - U3 = x1 * BW + x2 - (rhat * BW + u2)) by (subst U3 V2; rewrite <- ET; lia). clear - I. lia. }
  rewrite C. destruct (U3 <? qhat * V2) eqn:L.
  - assert (U3 / V2 < qhat) by (apply Z.div_lt_upper_bound; lia). rewrite (ww_small (qhat - 1)) by lia.
    destruct (Z_lt_ge_dec (rhat + vn1) BW) as [Hs|Hs].
    + rewrite (ww_small (rhat + vn1)) by lia. replace (rhat + vn1 <? rhat) with false by lia. apply (IH (qhat - 1) (rhat + vn1) vn1 vn2 u2 T); try lia; fold U3; fold V2; lia.
    + replace (ww (rhat + vn1)) with (rhat + vn1 - BW) by (unfold ww; apply (Z.mod_unique (rhat + vn1) BW 1); lia). replace (rhat + vn1 - BW <? rhat) with true by lia. f_equal.
      assert ((qhat - 1) * V2 <= U3) by (subst U3 V2; rewrite <- ET; apply lower_more; lia). assert (qhat - 1 <= U3 / V2) by (apply Z.div_le_lower_bound; lia). lia.
  - f_equal. assert (qhat <= U3 / V2) by (apply Z.div_le_lower_bound; lia). lia.
Qed.
(** Knuth's theorem: the guess is at most one too high *)
Lemma guess_le : forall P U3 V2 u v, 0 < P -> 0 < V2 -> 0 <= U3 -> 0 <= u < P -> 0 <= v < P -> (U3 * P + u) / (V2 * P + v) <= U3 / V2.
Proof.
  intros P U3 V2 u v HP HV HU Hu Hv. apply Z.div_le_lower_bound; [lia|].
  pose proof (Z.div_mod (U3 * P + u) (V2 * P + v) ltac:(nia)) as DM. pose proof (Z.mod_pos_bound (U3 * P + u) (V2 * P + v) ltac:(nia)) as MB.
  pose proof (Z.div_pos (U3 * P + u) (V2 * P + v) ltac:(nia) ltac:(nia)) as DP. set (q := (U3 * P + u) / (V2 * P + v)) in *. clearbody q.
  assert (V2 * q * P < (U3 + 1) * P) by nia. nia.
Qed.
Lemma guess_ge : forall P W U3 V2 u v, 0 < P -> 0 < W -> W * W <= 2 * V2 -> 0 <= U3 -> 0 <= u < P -> 0 <= v < P -> 0 < V2 -> U3 / V2 < W -> U3 / V2 <= (U3 * P + u) / (V2 * P + v) + 1.
Proof.
  intros P W U3 V2 u v HP HW HN2 HU Hu Hv HV Hq. pose proof (Z.mul_div_le U3 V2 HV) as M. pose proof (Z.div_pos U3 V2 HU HV) as Q0. set (g := U3 / V2) in *. clearbody g.
  destruct (Z.eq_dec g 0) as [->|G0]; [pose proof (Z.div_pos (U3 * P + u) (V2 * P + v) ltac:(nia) ltac:(nia)); lia|].
  assert (g - 1 <= (U3 * P + u) / (V2 * P + v)); [|lia]. apply Z.div_le_lower_bound; [nia|].
  assert (v * (g - 1) <= P * (g - 1)) by nia. assert (g - 1 <= V2) by nia.
  assert ((V2 * P) * (g - 1) = (V2 * g) * P - V2 * P) by ring. nia.
Qed.
Lemma guess_top : forall W P vn1 V2 v U, 2 <= W -> 0 < P -> W <= 2 * vn1 -> V2 < (vn1 + 1) * W -> 0 < V2 -> 0 <= v < P -> vn1 * (W * W) * P <= U -> U < (V2 * P + v) * W ->
  U / (V2 * P + v) = W - 1 \/ U / (V2 * P + v) + 1 = W - 1.
Proof.
  intros W P vn1 V2 v U HW HP Hn H2 H2p Hv HU Hlt. assert (PV : 0 < V2 * P + v) by nia. assert (A : U / (V2 * P + v) < W) by (apply Z.div_lt_upper_bound; lia).
  assert (B : W - 2 <= U / (V2 * P + v)); [|lia]. apply Z.div_le_lower_bound; [exact PV|]. apply Z.le_trans with (vn1 * (W * W) * P); [|exact HU].
  assert (C : V2 * P + v <= (vn1 + 1) * W * P) by nia. apply Z.le_trans with ((vn1 + 1) * W * P * (W - 2)); [nia|].
  assert (D : (vn1 + 1) * (W - 2) <= vn1 * W) by nia. replace ((vn1 + 1) * W * P * (W - 2)) with ((vn1 + 1) * (W - 2) * (W * P)) by ring. replace (vn1 * (W * W) * P) with (vn1 * W * (W * P)) by ring.
  apply Z.mul_le_mono_nonneg_r; nia.
Qed.
Lemma top_le : forall W P vn1 V2 v t U, 0 < W -> 0 < P -> V2 < (vn1 + 1) * W -> 0 <= v < P -> t * (W * W) * P <= U -> U < (V2 * P + v) * W -> 0 <= vn1 -> t <= vn1.
Proof.
  intros W P vn1 V2 v t U HW HP H2 Hv HU Hlt H1. destruct (Z_le_gt_dec t vn1) as [L|L]; [exact L|exfalso].
  assert (A : V2 * P + v <= (vn1 + 1) * W * P) by nia. assert (B : (vn1 + 1) * (W * W) * P <= t * (W * W) * P) by (apply Z.mul_le_mono_nonneg_r; nia).
  assert (C : (V2 * P + v) * W <= (vn1 + 1) * W * P * W) by (apply Z.mul_le_mono_nonneg_r; lia). assert (D : (vn1 + 1) * W * P * W = (vn1 + 1) * (W * W) * P) by ring. lia.
Qed.
Lemma guess_ok : forall P vn1 vn2 v t u1 u2 u m, 0 < P -> 0 < vn1 < BW -> BW <= 2 * vn1 -> 0 <= vn2 < BW -> 0 <= v < P -> 0 <= t < BW -> 0 <= u1 < BW -> 0 <= u2 < BW -> 0 <= u < P ->
  reciprocalWord vn1 = Ret m -> let V := (vn1 * BW + vn2) * P + v in let U := ((t * BW + u1) * BW + u2) * P + u in U < V * BW ->
  exists g, (if t =? vn1 then Ret (BW - 1) else let (qhat, rhat) := divWW t u1 vn1 m in refine 3 qhat rhat vn1 vn2 u2) = Ret g /\ 0 <= g < BW /\ (g = U / V \/ g = U / V + 1).
Proof.
  intros P vn1 vn2 v t u1 u2 u m HP H1 Hn H2 Hv Ht Hu1 Hu2 Hu Em V U Hlt. pose proof BW_big as BB. set (V2 := vn1 * BW + vn2) in *.
  assert (V2p : 0 < V2) by (subst V2; nia). assert (V2l : V2 < (vn1 + 1) * BW) by (subst V2; nia). assert (V2n : BW * BW <= 2 * V2) by (subst V2; nia).
  assert (Ul : t * (BW * BW) * P <= U). { subst U. replace (((t * BW + u1) * BW + u2) * P + u) with (t * (BW * BW) * P + ((u1 * BW + u2) * P + u)) by ring. assert (0 <= (u1 * BW + u2) * P + u) by nia. lia. }
  destruct (t =? vn1) eqn:E.
  - exists (BW - 1). split; [reflexivity|]. split; [lia|]. assert (t = vn1) by lia. subst t.
    destruct (guess_top BW P vn1 V2 v U) as [G|G]; try assumption; try lia; [left|right]; unfold V; lia.
  - pose proof (top_le BW P vn1 V2 v t U ltac:(lia) HP V2l Hv Ul Hlt ltac:(lia)) as T1. rewrite (divWW_ok vn1 t u1 m H1 Em) by lia.
    set (T := t * BW + u1) in *. assert (T0 : 0 <= T) by (subst T; nia). assert (Tl : T < vn1 * BW) by (subst T; apply two_lt; lia).
    pose proof (Z.div_mod T vn1 ltac:(lia)) as DM. pose proof (Z.mod_pos_bound T vn1 ltac:(lia)) as MB.
    assert (Q : 0 <= T / vn1 < BW) by (split; [apply Z.div_pos; lia|apply Z.div_lt_upper_bound; lia]).
    pose proof (guess_le BW T vn1 u2 vn2 ltac:(lia) ltac:(lia) T0 Hu2 H2) as GL.
    assert (G0 : 0 <= (T * BW + u2) / V2) by (apply Z.div_pos; [nia|lia]).
    rewrite (refine_ok 3 _ _ vn1 vn2 u2 T); try assumption; try lia. fold V2. exists ((T * BW + u2) / V2). split; [reflexivity|]. fold V2 in GL. split; [lia|].
    assert (U30 : 0 <= T * BW + u2) by nia.
    pose proof (guess_le P (T * BW + u2) V2 u v HP V2p U30 Hu Hv) as K1. pose proof (guess_ge P BW (T * BW + u2) V2 u v HP ltac:(lia) V2n U30 Hu Hv V2p ltac:(lia)) as K2.
    fold U in K1, K2. fold V in K1, K2. lia.
Qed.

(** one digit of the quotient *)
Lemma get_app : forall {A} (x : list A) a y, get (x ++ a :: y) (length x) = Ret a.
Proof. intros A x a y. unfold get. rewrite nth_error_app2 by lia. rewrite Nat.sub_diag. reflexivity. Qed.
Lemma sub_right : forall N V U g c w t, 0 < N -> 0 < V < N -> 0 <= U -> (g = U / V \/ g = U / V + 1) -> 0 <= w < N -> 0 <= t < BW -> 0 <= c <= 1 ->
  w + N * t - N * BW * c = U - g * V -> (c = 0 /\ g = U / V /\ t = 0 /\ w = U mod V) \/ (c = 1 /\ g = U / V + 1 /\ w + N * t + V = N * BW + U mod V).
Proof.
  intros N V U g c w t HN HV HU Hg Hw Ht Hc E. pose proof (Z.div_mod U V ltac:(lia)) as DM. pose proof (Z.mod_pos_bound U V ltac:(lia)) as MB. set (q := U / V) in *. set (r := U mod V) in *. clearbody q r.
  pose proof BW_big. destruct (bit_one c Hc) as [-> | ->]; destruct Hg as [-> | ->].
  - left. assert (E' : w + N * t = r) by lia. assert (t = 0) by nia. subst t. repeat split; lia.
  - exfalso. assert (0 <= N * t) by nia. lia.
  - exfalso. assert (w + N * t < N * BW) by nia. lia.
  - right. split; [reflexivity|]. split; [reflexivity|]. lia.
Qed.
Lemma add_back : forall N r w t w' c, 0 < N -> 0 <= r < N -> 0 <= w' < N -> 0 <= t < BW -> 0 <= c <= 1 -> w' + N * (c + t) = N * BW + r -> w = w' -> w' = r /\ c + t = BW.
Proof. intros N r w t w' c HN Hr Hw Ht Hc E _. assert (c + t = BW) by nia. split; [nia|assumption]. Qed.
Lemma two_top : forall (x : list Z) n, length x = S (S n) -> exists x0 a b, x = x0 ++ [a; b] /\ length x0 = n.
Proof.
  intros x n H. exists (firstn n x), (nth n x 0), (nth (S n) x 0). split; [|rewrite firstn_length; lia].
  rewrite <- (firstn_skipn n x) at 1. f_equal. rewrite skipn_nth by lia. f_equal. rewrite skipn_nth by lia. f_equal. apply skipn_all2. lia.
Qed.
Section Digit.
Variables (v : list Z) (vn1 vn2 m : Z) (k : nat) (v0 : list Z).
Hypothesis Ev : v = v0 ++ [vn2; vn1].
Hypothesis Lk : length v0 = k.
Hypothesis Wv : words v.
Hypothesis Hn : BW <= 2 * vn1.
Hypothesis Em : reciprocalWord vn1 = Ret m.
Lemma dv_len : length v = S (S k).
Proof. rewrite Ev, app_length, Lk. cbn [length]. lia. Qed.
Lemma dv_val : val v = (vn1 * BW + vn2) * pw k + val v0.
Proof. rewrite Ev, val_app, Lk, val_cons, val_one. ring. Qed.
Lemma dv_words : words v0 /\ 0 <= vn2 < BW /\ 0 < vn1 < BW.
Proof.
  pose proof Wv as W. rewrite Ev in W. apply words_app in W. destruct W as [W W']. destruct (proj1 (words_cons _ _) W') as [A W2]. destruct (proj1 (words_cons _ _) W2) as [B _]. pose proof BW_big.
  repeat split; try assumption; lia.
Qed.
Lemma dv_pos : 0 < val v < pw (length v).
Proof.
  destruct dv_words as (W0 & H2 & H1). pose proof (val_range v Wv) as R. split; [|lia]. rewrite dv_val. pose proof (pw_pos k). pose proof (val_range v0 W0). pose proof BW_big. nia.
Qed.
Lemma digit_ok : forall win top, words win -> length win = length v -> 0 <= match top with Some t => t | None => 0 end < BW ->
  (top = None -> val win < val v) ->
  let U := val win + pw (length v) * match top with Some t => t | None => 0 end in U < val v * BW ->
  exists win', div_digit v vn1 vn2 m win top = Ret (U / val v, win', match top with Some _ => Some 0 | None => None end) /\ words win' /\ length win' = length v /\ val win' = U mod val v.
Proof.
  intros win top Ww Lw Ht Hnone U Hlt. destruct dv_words as (W0 & H2 & H1). pose proof dv_pos as HV. pose proof (val_range win Ww) as Rw. rewrite Lw in Rw.
  pose proof (pw_pos (length v)) as HN. pose proof BW_big as BB.
  destruct (two_top win k) as (w0 & u2 & u1 & Ew & Lw0); [rewrite Lw; apply dv_len|].
  pose proof Ww as Ww'. rewrite Ew in Ww'. apply words_app in Ww'. destruct Ww' as [Ww0 Ww2]. destruct (proj1 (words_cons _ _) Ww2) as [Hu2 Ww1]. destruct (proj1 (words_cons _ _) Ww1) as [Hu1 _].
  set (t := match top with Some t => t | None => 0 end) in *.
  assert (EU : U = ((t * BW + u1) * BW + u2) * pw k + val w0).
  { unfold U. rewrite Ew, val_app, Lw0, val_cons, val_one, dv_len, !pw_S. ring. }
  destruct (guess_ok (pw k) vn1 vn2 (val v0) t u1 u2 (val w0) m) as (g & Eg & Rg & Hg); try assumption.
  { apply pw_pos. } { rewrite <- Lk. apply val_range. exact W0. } { rewrite <- Lw0. apply val_range. exact Ww0. } { rewrite <- EU, <- dv_val. exact Hlt. }
  rewrite <- EU, <- dv_val in Hg. assert (U0 : 0 <= U) by (unfold U; nia).
  unfold div_digit. cbv zeta. fold t.
  assert (EQ : (if t =? vn1 then Ret (BW - 1) else bind (get win (length v - 1)) (fun u1 => bind (get win (length v - 2)) (fun u2 => let (qhat, rhat) := divWW t u1 vn1 m in refine 3 qhat rhat vn1 vn2 u2))) = Ret g).
  { rewrite <- Eg. destruct (t =? vn1); [reflexivity|]. rewrite dv_len. replace (S (S k) - 1)%nat with (length (w0 ++ [u2])) by (rewrite app_length, Lw0; cbn [length]; lia).
    replace (S (S k) - 2)%nat with (length w0) by lia. rewrite Ew. rewrite (get_app w0 u2 [u1]). replace (w0 ++ [u2; u1]) with ((w0 ++ [u2]) ++ [u1]) by (rewrite <- app_assoc; reflexivity). rewrite (get_app (w0 ++ [u2]) u1 []). reflexivity. }
  rewrite EQ. clear EQ Eg. cbn [bind].
  destruct (mulAddVWW v g 0) as [qv qn] eqn:E1. destruct (mulAddVWW_ok _ _ _ _ _ E1 Wv Rg ltac:(lia)) as (A1 & A2 & A3 & A4). rewrite Z.add_0_r in A1.
  pose proof (Z.mod_pos_bound U (val v) ltac:(lia)) as MB.
  destruct top as [t'|].
  - change t with t' in *. clear t. destruct (subVV (win ++ [t']) (qv ++ [qn]) 0) as [u c] eqn:E2.
    destruct (subVV_ok _ _ _ _ _ E2) as (B1 & B2 & B3 & B4); [rewrite !app_length; cbn [length]; lia|apply words_snoc; assumption|apply words_snoc; assumption|lia|].
    rewrite app_length, Lw in B1, B3. cbn [length] in B1, B3. rewrite Nat.add_1_r in B1, B3. rewrite !val_app, !val_one, A3, Lw, pw_S, Z.sub_0_r in B1.
    set (w := firstn (length v) u). set (tt := nth (length v) u 0).
    assert (Es : u = w ++ [tt]). { rewrite <- (firstn_skipn (length v) u) at 1. fold w. f_equal. rewrite skipn_nth by lia. fold tt. f_equal. apply skipn_all2. lia. }
    assert (Lww : length w = length v) by (unfold w; rewrite firstn_length; lia).
    rewrite Es in B1, B2. rewrite val_app, val_one, Lww in B1. apply words_app in B2. destruct B2 as [Ww' Wt]. destruct (proj1 (words_cons _ _) Wt) as [Ht' _]. clear Wt.
    pose proof (val_range w Ww') as Rw'. rewrite Lww in Rw'. clearbody w tt.
    destruct (sub_right (pw (length v)) (val v) U g c (val w) tt HN HV U0 Hg Rw' Ht' B4) as [(-> & -> & -> & Ev')|(-> & -> & Ev')].
    { unfold U. lia. }
    + cbn [Z.eqb]. exists w. repeat split; assumption.
    + cbn [Z.eqb]. destruct (addVV w v 0) as [w' c'] eqn:E3. destruct (addVV_ok _ _ _ _ _ E3 Lww Ww' Wv ltac:(lia)) as (C1 & C2 & C3 & C4). rewrite Lww in C1, C3.
      pose proof (val_range w' C2) as Rw2. rewrite C3 in Rw2. destruct (add_back (pw (length v)) (U mod val v) (val w') tt (val w') c' HN ltac:(lia) Rw2 Ht' C4) as [D1 D2]; [lia|reflexivity|].
      exists w'. replace (ww (tt + c')) with 0 by (rewrite Z.add_comm, D2; unfold ww; symmetry; apply Z_mod_same_full).
      replace (U / val v + 1 - 1) with (U / val v) by lia. pose proof (Z.div_pos U (val v) U0 ltac:(lia)). rewrite ww_small by lia. repeat split; assumption.
  - change t with 0 in *. clear t. specialize (Hnone eq_refl). assert (EU' : U = val win) by (unfold U; lia). clear EU. clearbody U. subst U. rewrite (Z.div_small (val win)) in Hg by lia. rewrite (Z.div_small (val win)), (Z.mod_small (val win)) by lia.
    assert (Qn : qn = 0). { pose proof (val_range qv A2) as Rq. rewrite A3 in Rq. destruct Hg as [-> | ->]; nia. }
    subst qn. cbn [Z.eqb negb]. destruct (subVV win qv 0) as [u c] eqn:E2. destruct (subVV_ok _ _ _ _ _ E2 ltac:(lia) Ww A2 ltac:(lia)) as (B1 & B2 & B3 & B4). rewrite Lw in B1, B3.
    pose proof (val_range u B2) as Ru. rewrite B3 in Ru.
    destruct Hg as [-> | ->].
    + assert (c = 0) by (destruct (bit_one c B4) as [-> | ->]; [reflexivity|exfalso; lia]). subst c. cbn [Z.eqb]. exists u. repeat split; try assumption. lia.
    + assert (c = 1) by (destruct (bit_one c B4) as [-> | ->]; [exfalso; lia|reflexivity]). subst c. cbn [Z.eqb]. destruct (addVV u v 0) as [w' c'] eqn:E3.
      destruct (addVV_ok _ _ _ _ _ E3 B3 B2 Wv ltac:(lia)) as (C1 & C2 & C3 & C4). rewrite B3 in C1, C3. pose proof (val_range w' C2) as Rw2. rewrite C3 in Rw2.
      exists w'. change (0 + 1 - 1) with 0. rewrite ww_small by lia. repeat split; try assumption. destruct (bit_one c' C4) as [-> | ->]; lia.
Qed.
(** the digits *)
Lemma digits_ok : forall low win j q, words low -> words win -> length win = length v -> val win < val v ->
  exists qs r, divBasic_loop v vn1 vn2 m low win (repeat 0 j) q = Ret (qs ++ q, r ++ repeat 0 (length low + j)) /\ words qs /\ length qs = length low /\ words r /\
    val (rev low) + pw (length low) * val win = val qs * val v + val r /\ val r < val v.
Proof.
  induction low as [|x low IH]; intros win j q Wl Ww Lw Hlt.
  - exists [], win. cbn [divBasic_loop app length rev val]. rewrite pw_0. split; [reflexivity|]. split; [exact words_nil|]. split; [reflexivity|]. split; [assumption|]. split; [lia|assumption].
  - destruct (proj1 (words_cons _ _) Wl) as [Hx Wl']. cbn [divBasic_loop]. pose proof dv_len as DL. pose proof BW_big as BB. pose proof dv_pos as HV.
    destruct (two_top win k) as (w0 & a & b & Ew & Lw0); [lia|].
    assert (G : get win (length v - 1) = Ret b). { rewrite DL. replace (S (S k) - 1)%nat with (length (w0 ++ [a])) by (rewrite app_length, Lw0; cbn [length]; lia). rewrite Ew. replace (w0 ++ [a; b]) with ((w0 ++ [a]) ++ [b]) by (rewrite <- app_assoc; reflexivity). apply get_app. }
    rewrite G. cbn [bind]. assert (Er : removelast win = w0 ++ [a]) by (rewrite Ew; replace (w0 ++ [a; b]) with ((w0 ++ [a]) ++ [b]) by (rewrite <- app_assoc; reflexivity); apply removelast_last).
    rewrite Er. pose proof Ww as Ww'. rewrite Ew in Ww'. replace (w0 ++ [a; b]) with ((w0 ++ [a]) ++ [b]) in Ww' by (rewrite <- app_assoc; reflexivity). apply words_app in Ww'. destruct Ww' as [Wa Wb]. destruct (proj1 (words_cons _ _) Wb) as [Hb _].
    assert (EU : val (x :: w0 ++ [a]) + pw (length v) * b = x + BW * val win). { rewrite Ew, val_cons, !val_app, Lw0, !val_cons, DL, !pw_S. change (val []) with 0. ring. }
    pose proof (val_range win Ww) as Rw.
    destruct (digit_ok (x :: w0 ++ [a]) (Some b)) as (win' & E & A1 & A2 & A3).
    { apply words_cons. split; assumption. } { cbn [length]. rewrite app_length, Lw0. cbn [length]. lia. } { exact Hb. } { discriminate. } { cbn [length] in *. rewrite EU. nia. }
    cbv zeta in E, A3. rewrite EU in E, A3. rewrite E. cbn [bind].
    pose proof (Z.div_mod (x + BW * val win) (val v) ltac:(lia)) as DM. pose proof (Z.mod_pos_bound (x + BW * val win) (val v) ltac:(lia)) as MB.
    set (d := (x + BW * val win) / val v) in *. assert (D : 0 <= d < BW) by (split; [apply Z.div_pos; nia|apply Z.div_lt_upper_bound; nia]).
    destruct (IH win' (S j) (d :: q) Wl' A1 A2 ltac:(lia)) as (qs & r & E' & B1 & B2 & B3 & B4 & B5).
    exists (qs ++ [d]), r. cbn [repeat] in E'. rewrite E'. split; [rewrite <- app_assoc; cbn [length app]; do 3 f_equal; f_equal; lia|].
    split; [apply words_snoc; assumption|]. split; [rewrite app_length; cbn [length]; lia|]. split; [exact B3|]. split; [|exact B5].
    cbn [rev length]. rewrite val_app, rev_length, val_app, !val_one, B2, pw_S. rewrite A3 in B4.
    transitivity (val (rev low) + pw (length low) * (x + BW * val win)); [ring|]. rewrite DM. transitivity (val (rev low) + pw (length low) * ((x + BW * val win) mod val v) + pw (length low) * d * val v); [ring|]. rewrite B4. ring.
Qed.
End Digit.
Lemma divBasic_ok : forall u v, words u -> words v -> (2 <= length v)%nat -> (length v <= length u)%nat -> BW <= 2 * nth (length v - 1) v 0 -> val (skipn (length u - length v) u) < val v ->
  exists q r, divBasic u v = Ret (q, r) /\ words q /\ words r /\ val q = val u / val v /\ val r = val u mod val v.
Proof.
  intros u v Wu Wv Lv Lu Hn Hlt. destruct (length v) as [|[|k]] eqn:L; try lia. destruct (two_top v k L) as (v0 & vn2 & vn1 & Ev & Lk).
  assert (N1 : nth (S (S k) - 1) v 0 = vn1). { rewrite Ev. replace (S (S k) - 1)%nat with (length v0 + 1)%nat by lia. rewrite app_nth2_plus. reflexivity. }
  rewrite N1 in Hn. unfold divBasic. cbv zeta. rewrite L.
  assert (G1 : get v (S (S k) - 1) = Ret vn1). { replace (S (S k) - 1)%nat with (length (v0 ++ [vn2])) by (rewrite app_length, Lk; cbn [length]; lia). rewrite Ev. replace (v0 ++ [vn2; vn1]) with ((v0 ++ [vn2]) ++ [vn1]) by (rewrite <- app_assoc; reflexivity). apply get_app. }
  assert (G2 : get v (S (S k) - 2) = Ret vn2). { replace (S (S k) - 2)%nat with (length v0) by lia. rewrite Ev. apply get_app. }
  rewrite G1, G2. cbn [bind]. destruct (dv_words v vn1 vn2 k v0 Ev Lk Wv Hn) as (_ & _ & H1). destruct (reciprocal_ok vn1 H1) as (m & Em & _). rewrite Em. cbn [bind].
  pose proof (dv_pos v vn1 vn2 k v0 Ev Lk Wv Hn) as HV. pose proof BW_big as BB.
  set (j := (length u - S (S k))%nat) in *. assert (Ls : length (skipn j u) = length v) by (rewrite skipn_length; lia). assert (Ws : words (skipn j u)) by (apply words_skipn; exact Wu).
  pose proof (val_range _ Ws) as Rs.
  destruct (digit_ok v vn1 vn2 m k v0 Ev Lk Wv Hn Em (skipn j u) None Ws Ls ltac:(lia) (fun _ => Hlt)) as (win & E & A1 & A2 & A3). { rewrite Z.mul_0_r, Z.add_0_r. nia. }
  rewrite Z.mul_0_r, Z.add_0_r in E, A3. rewrite Z.div_small in E by lia. rewrite Z.mod_small in A3 by lia. rewrite E. cbn [bind Z.eqb negb].
  destruct (digits_ok v vn1 vn2 m k v0 Ev Lk Wv Hn Em (rev (firstn j u)) win 0 []) as (qs & r & E' & B1 & B2 & B3 & B4 & B5); [apply Forall_rev; apply words_firstn; exact Wu|exact A1|exact A2|lia|].
  cbn [repeat] in E'. rewrite E', app_nil_r. eexists _, _. split; [reflexivity|]. pose proof (val_range r B3) as Rr.
  assert (Lf : length (rev (firstn j u)) = length (firstn j u)) by apply rev_length. rewrite Lf, rev_involutive, A3, <- val_app, firstn_skipn in B4.
  destruct (div_mod_is _ _ _ _ B4 ltac:(lia)) as [Q1 Q2]. split; [exact B1|]. split; [apply words_app; split; [exact B3|apply words_repeat0]|]. split; [exact Q1|].
  rewrite val_app, val_repeat0, Z.mul_0_r, Z.add_0_r. exact Q2.
Qed.
Lemma snoc : forall (x : list Z), x <> [] -> exists x0 a, x = x0 ++ [a] /\ length x0 = (length x - 1)%nat.
Proof. intros x H. destruct (exists_last H) as (x0 & a & E). exists x0, a. split; [exact E|]. rewrite E, app_length. cbn [length]. lia. Qed.
Lemma top_word : forall x0 a, words (x0 ++ [a]) -> pw (length x0) * a <= val (x0 ++ [a]) < pw (length x0) * (a + 1) /\ 0 <= a < BW.
Proof.
  intros x0 a W. apply words_app in W. destruct W as [W0 Wa]. destruct (proj1 (words_cons _ _) Wa) as [Ha _]. pose proof (val_range x0 W0). rewrite val_app, val_one. split; [|exact Ha].
  rewrite Z.mul_add_distr_l, Z.mul_1_r. lia.
Qed.
Lemma divLarge_ok : forall u v a b, stands u a -> stands v b -> (2 <= length v < 100)%nat -> b <= a -> exists q r, divLarge u v = Ret (q, r) /\ stands q (a / b) /\ stands r (a mod b).
Proof.
  intros u v a b (Wu & Nu & Vu) (Wv & Nv & Vv) Lv Hle. pose proof BW_big as BB.
  destruct (snoc v) as (v0 & vt & Ev & L0). { intro E. rewrite E in Lv. cbn [length] in Lv. lia. }
  assert (Nt : vt <> 0) by (rewrite Ev, last_last in Nv; exact Nv). pose proof Wv as Wv'. rewrite Ev in Wv'. destruct (top_word _ _ Wv') as [TW Ht]. rewrite <- Ev, Vv in TW.
  assert (Ht' : 0 < vt < BW) by lia. destruct (nlz_ok vt Ht') as (S1 & S2 & S3).
  assert (Luv : (length v <= length u)%nat).
  { destruct (Nat.le_gt_cases (length v) (length u)) as [L|L]; [exact L|exfalso]. pose proof (val_range u Wu) as Ru. pose proof (pw_mono (length u) (length v0) ltac:(lia)). rewrite Vu in Ru. pose proof (pw_pos (length v0)) as Pp. assert (K : pw (length v0) * 1 <= pw (length v0) * vt) by (apply Z.mul_le_mono_nonneg_l; lia). lia. }
  unfold divLarge. replace (get v (length v - 1)) with (Ret vt). 2:{ rewrite <- L0, Ev. symmetry. apply get_app. }
  cbn [bind]. set (s := nlz vt) in *. pose proof (Z.pow_pos_nonneg 2 s ltac:(lia) ltac:(lia)) as P. pose proof (pw_pos (length v0)) as PP.
  destruct (shlVU v s) as [v' cv] eqn:E1. destruct (shlVU_ok _ _ _ _ S1 Wv E1) as (A1 & A2 & A3 & A4). destruct (shlVU u s) as [u' c] eqn:E2. destruct (shlVU_ok _ _ _ _ S1 Wu E2) as (B1 & B2 & B3 & B4).
  rewrite Vv in A1. rewrite Vu in B1. assert (Lpw : pw (length v) = BW * pw (length v0)) by (rewrite <- pw_S; f_equal; lia).
  assert (T64 : 2 ^ (64 - s) * 2 ^ s = BW) by (rewrite <- Z.pow_add_r by lia; replace (64 - s + s) with 64 by lia; symmetry; exact BW_pow).
  assert (Hs : (vt + 1) * 2 ^ s <= BW). { assert (vt < 2 ^ (64 - s)) by (apply (Z.mul_lt_mono_pos_r (2 ^ s)); lia). rewrite <- T64. apply Z.mul_le_mono_nonneg_r; lia. }
  assert (cv = 0). { pose proof (val_range v' A2). assert (b * 2 ^ s < pw (length v)). { rewrite Lpw. apply Z.lt_le_trans with (pw (length v0) * ((vt + 1) * 2 ^ s)); [rewrite Z.mul_assoc; apply Z.mul_lt_mono_pos_r; lia|]. rewrite (Z.mul_comm BW). apply Z.mul_le_mono_nonneg_l; lia. }
    assert (pw (length v) * cv < pw (length v) * 1) by lia. assert (cv < 1) by (apply (Z.mul_lt_mono_pos_l (pw (length v))); [apply pw_pos|lia]). lia. }
  subst cv. rewrite Z.mul_0_r, Z.add_0_r in A1.
  destruct (snoc v') as (v1 & wt & Ev' & L1). { intro E. rewrite E in A3. cbn [length] in A3. lia. }
  pose proof A2 as A2'. rewrite Ev' in A2'. destruct (top_word _ _ A2') as [TW' Hw]. rewrite <- Ev', A1 in TW'. rewrite L1, A3, <- L0 in TW'.
  assert (Hb0 : pw (length v0) * (vt * 2 ^ s) <= b * 2 ^ s) by (rewrite Z.mul_assoc; apply Z.mul_le_mono_nonneg_r; lia).
  assert (Hn : BW <= 2 * wt). { assert (vt * 2 ^ s < wt + 1); [|lia]. apply (Z.mul_lt_mono_pos_l (pw (length v0))); lia. }
  replace (100 <=? length v')%nat with false by (symmetry; apply Nat.leb_gt; lia).
  assert (S63 : 2 * 2 ^ s <= BW). { rewrite <- T64. pose proof (Z.pow_le_mono_r 2 1 (64 - s) ltac:(lia) ltac:(lia)) as K. change (2 ^ 1) with 2 in K. apply Z.mul_le_mono_nonneg_r; lia. }
  assert (Wuc : words (u' ++ [c])) by (apply words_snoc; [exact B2|lia]).
  assert (Luc : length (u' ++ [c]) = S (length u)) by (rewrite app_length, B3; cbn [length]; lia).
  destruct (divBasic_ok (u' ++ [c]) v') as (q & r & E & C1 & C2 & C3 & C4); [exact Wuc|exact A2|lia|lia| | |].
  { replace (nth (length v' - 1) v' 0) with wt; [exact Hn|]. rewrite <- L1. rewrite Ev'. rewrite app_nth2 by lia. rewrite Nat.sub_diag. reflexivity. }
  { rewrite Luc, A3. rewrite skipn_app, B3. replace (S (length u) - length v - length u)%nat with 0%nat by lia. cbn [skipn].
    set (w := skipn (S (length u) - length v) u'). assert (Ww : words w) by (apply words_skipn; exact B2). assert (Lw : length w = length v0) by (unfold w; rewrite skipn_length; lia).
    destruct (top_word w c) as [K _]; [apply words_snoc; [exact Ww|lia]|]. rewrite Lw in K. rewrite A1. apply Z.lt_le_trans with (pw (length v0) * (c + 1)); [lia|]. apply Z.le_trans with (pw (length v0) * wt); [apply Z.mul_le_mono_nonneg_l; lia|lia]. }
  rewrite E. cbn [bind]. eexists _, _. split; [reflexivity|]. rewrite val_app, val_one, B3, B1, A1 in C3, C4. assert (B0 : b <> 0) by (pose proof (Z.mul_pos_pos (pw (length v0)) vt PP ltac:(lia)); lia). rewrite Z.div_mul_cancel_r in C3 by lia. rewrite Zmult_mod_distr_r in C4.
  split; apply norm_stands; [exact C1|exact C3| |]; destruct (shrVU_ok r s S1 C2) as (D1 & D2 & _); [exact D2|]. rewrite D1, C4, Z.div_mul by lia. reflexivity.
Qed.
Lemma natDiv_ok : forall u v a b, stands u a -> stands v b -> 0 < b -> (length v < 100)%nat -> exists q r, natDiv u v = Ret (q, r) /\ stands q (a / b) /\ stands r (a mod b).
Proof.
  intros u v a b Su Sv Hb Lv. pose proof (stands_nonneg u a Su) as Ra. unfold natDiv. destruct v as [|v0 [|v1 v]].
  - destruct Sv as (_ & _ & E). cbn [val] in E. lia.
  - assert (v0 = b /\ 0 <= v0 < BW) as [-> Hv]. { destruct Sv as (W & _ & E). rewrite val_one in E. split; [exact E|]. apply (proj1 (words_cons _ _) W). }
    destruct (divW_ok u a b Su ltac:(lia)) as (q & E & S). rewrite E. cbn [bind]. exists q, (setWord (a mod b)). split; [reflexivity|]. split; [exact S|]. apply setWord_stands. pose proof (Z.mod_pos_bound a b Hb). lia.
  - rewrite (natCmp_ok u _ a b Su Sv). destruct (a ?= b) eqn:C; cbn [Z.ltb Z.compare].
    + apply Z.compare_eq in C. apply divLarge_ok; [exact Su|exact Sv|cbn [length] in *; lia|lia].
    + apply (proj1 (Z.compare_lt_iff a b)) in C. exists [], u. rewrite (Z.div_small a b), (Z.mod_small a b) by lia. split; [reflexivity|]. split; [|exact Su]. split; [exact words_nil|]. split; [cbn; lia|reflexivity].
    + apply (proj1 (Z.compare_gt_iff a b)) in C. apply divLarge_ok; [exact Su|exact Sv|cbn [length] in *; lia|lia].
Qed.
