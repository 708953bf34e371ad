(** ClaimsSlider.v - the property statements of PropsSlider.v with their proofs. *)
From Verif Require Import Base GoStr Prims Hash Bip39 WordLists WlEnglish AllLists Bip32Path Bip32Reg Bip32 Base58 Util Ui Claims32 ClaimsUtil Claims39 ClaimsUi.
From Coq Require Import QArith Qround Lqa Lia.
From Verif Require Import Slider SpecSlider SliderFacts.
From Coq Require Import ZifyBool ZifyNat ZifyN.

Lemma C71_smooth_odd_l : forall u : Q, (smooth (- u) == - smooth u)%Q.
Proof.
exact smooth_odd.
Qed.

Lemma C71_smooth_ends_l : (smooth 0 == 0 /\ smooth 1 == 1 /\ smooth (-1) == -1)%Q.
Proof.
repeat split; reflexivity.
Qed.

Lemma C71_smooth_cubic_l : forall u : Q, (0 <= u -> smooth u == eased u)%Q.
Proof.
exact smooth_pos.
Qed.

Lemma C71_smooth_range_l : forall u : Q, (-1 <= u -> u <= 1 -> -1 <= smooth u /\ smooth u <= 1)%Q.
Proof.
intros u A B. destruct (Qlt_le_dec u 0) as [L|L].
- rewrite smooth_neg by exact L. pose proof (eased_range (- u) ltac:(lra) ltac:(lra)). lra.
- rewrite smooth_pos by exact L. pose proof (eased_range u ltac:(lra) ltac:(lra)). lra.
Qed.

Lemma C71_smooth_monotone_l : forall a b : Q, (-1 <= a -> a <= b -> b <= 1 -> smooth a <= smooth b)%Q.
Proof.
intros a b A L B. destruct (Qlt_le_dec a 0) as [La|La], (Qlt_le_dec b 0) as [Lb|Lb].
- rewrite !smooth_neg by assumption. pose proof (eased_mono (- b) (- a) ltac:(lra) ltac:(lra) ltac:(lra)). lra.
- rewrite smooth_neg, smooth_pos by assumption. pose proof (eased_range (- a) ltac:(lra) ltac:(lra)). pose proof (eased_range b ltac:(lra) ltac:(lra)). lra.
- lra.
- rewrite !smooth_pos by assumption. apply eased_mono; lra.
Qed.

Lemma C71_smooth_no_jump_l : forall a b : Q, (-1 <= a -> a <= b -> b <= 1 -> smooth b - smooth a <= 3 * (b - a))%Q.
Proof.
intros a b A L B. destruct (Qlt_le_dec a 0) as [La|La], (Qlt_le_dec b 0) as [Lb|Lb].
- rewrite !smooth_neg by assumption. pose proof (eased_lip (- b) (- a) ltac:(lra) ltac:(lra) ltac:(lra)). lra.
- rewrite (smooth_neg a), (smooth_pos b) by assumption. pose proof (eased_lip 0 (- a) ltac:(lra) ltac:(lra) ltac:(lra)). pose proof (eased_lip 0 b ltac:(lra) ltac:(lra) ltac:(lra)). pose proof eased_0. lra.
- lra.
- rewrite !smooth_pos by assumption. apply eased_lip; lra.
Qed.

Lemma C71_ex_l : exists a b : Q, (-1 <= a /\ a <= b /\ b <= 1 /\ smooth a == -(1 # 16) /\ smooth b == 15 # 16)%Q.
Proof.
exists (-(1 # 4))%Q, (3 # 4)%Q. repeat split; (vm_compute; discriminate) || reflexivity.
Qed.

Lemma C72_history_l : forall (A : Type) D (l : list (act A)) x, 0 <= D -> in_order (l ++ [x]) -> proper (l ++ [x]) ->
  let (s, h) := play (idle D) [] l in snd (show1 x s h) = shows (effective D) l x.
Proof.
exact @layout_shows.
Qed.

Lemma C72_only_two_pictures_l : forall (A : Type) D (l : list (act A)) x p a, In (p, a) (shows D l x) -> a = pic x \/
  exists l1 y z l2, l ++ [x] = l1 ++ y :: z :: l2 /\ a = pic y /\ dir z <> 0 /\ Forall (fun y => dir y = 0) l2 /\ time x - time z < D.
Proof.
exact @shows_only.
Qed.

Lemma C72_current_picture_l : forall (A : Type) D (l : list (act A)) x, exists p, In (p, pic x) (shows D l x).
Proof.
exact @shows_current.
Qed.

Lemma C72_positions_l : forall (A : Type) D (l l1 l2 : list (act A)) y z x, 0 < D -> in_order (l ++ [x]) -> proper (l ++ [x]) ->
  l ++ [x] = l1 ++ y :: z :: l2 -> dir z <> 0 -> Forall (fun v => dir v = 0) l2 -> time x - time z < D ->
  exists shift, 0 <= shift <= width x /\ (time x = time z -> shift = 0) /\
    shows D l x = [(- dir z * shift, pic y); (- dir z * shift + dir z * width x, pic x)].
Proof.
intros A D l l1 l2 y z x P Io Pr E Dz F C.
assert (LP : last_push None None (l ++ [x]) = Some (dir z, time z, Some (pic y))).
{ rewrite E. replace (l1 ++ y :: z :: l2) with ((l1 ++ [y]) ++ z :: l2) by (rewrite <- app_assoc; reflexivity).
  rewrite last_push_app. unfold last_pic at 1. rewrite map_app. cbn [map]. rewrite last_last. cbn [last_push].
  destruct (Z.eqb_spec (dir z) 0); [contradiction|]. generalize (Some (pic z)). clear -F. induction F as [|v r Ev F IH]; intro o; [reflexivity|].
  cbn [last_push]. rewrite Ev. apply IH. }
assert (Lz : time z <= time x).
{ rewrite E in Io. replace (l1 ++ y :: z :: l2) with ((l1 ++ [y]) ++ z :: l2) in Io by (rewrite <- app_assoc; reflexivity).
  apply in_order_app in Io. destruct Io as (_ & Io & _).
  destruct l2 as [|x' l3 _] using rev_ind.
  - replace (l1 ++ [y; z]) with ((l1 ++ [y]) ++ [z]) in E by (rewrite <- app_assoc; reflexivity). apply app_inj_tail in E. destruct E as [_ ->]. lia.
  - replace (l1 ++ y :: z :: l3 ++ [x']) with ((l1 ++ y :: z :: l3) ++ [x']) in E by (rewrite <- app_assoc; reflexivity).
    apply app_inj_tail in E. destruct E as [_ <-]. cbn [in_order] in Io. apply sorted_app in Io. destruct Io as [S1 [S2 _]].
    enough (time z <= last_time (time z) l3) by lia. clear -S1. revert S1. generalize (time z). induction l3 as [|v r IH]; intros t S1; [unfold last_time; cbn; lia|].
    destruct S1 as [S1 S2]. unfold last_time. cbn [map]. rewrite last_cons_default. specialize (IH _ S2). unfold last_time in IH. lia. }
assert (W : 0 <= width x) by (apply Forall_app in Pr; destruct Pr as [_ Pr]; inversion Pr; tauto).
assert (PD : (0 < inject_Z D)%Q) by (rewrite <- (Zlt_Qlt 0); lia).
set (q := (inject_Z (time x - time z) / inject_Z D)%Q).
assert (Q0 : (0 <= q)%Q) by (apply Qle_shift_div_l; [assumption|]; rewrite Qmult_0_l, <- (Zle_Qle 0); lia).
assert (Q1 : (q <= 1)%Q) by (apply Qle_shift_div_r; [assumption|]; rewrite Qmult_1_l, <- Zle_Qle; lia).
exists (pixels (eased q) (width x)). split; [apply pixels_range; assumption|]. split.
- intro Et. assert (Eq : (q == 0)%Q) by (unfold q; rewrite Et, Z.sub_diag; unfold Qdiv; rewrite Qmult_0_l; reflexivity).
  unfold pixels. rewrite Eq, eased_0, Qmult_0_r. reflexivity.
- unfold shows. rewrite LP. destruct (Z.leb_spec D (time x - time z)); [lia|]. reflexivity.
Qed.

Lemma C72_forward_l : forall D t t' w, 0 < D -> 0 <= w -> 0 <= t -> t <= t' -> t' <= D ->
  pixels (eased (inject_Z t / inject_Z D)) w <= pixels (eased (inject_Z t' / inject_Z D)) w /\ pixels (eased (inject_Z t' / inject_Z D)) w <= w.
Proof.
intros D t t' w P W L L1 L2. assert (PD : (0 < inject_Z D)%Q) by (rewrite <- (Zlt_Qlt 0); lia).
assert (Q0 : (0 <= inject_Z t / inject_Z D)%Q) by (apply Qle_shift_div_l; [assumption|]; rewrite Qmult_0_l, <- (Zle_Qle 0); lia).
assert (Q1 : (inject_Z t' / inject_Z D <= 1)%Q) by (apply Qle_shift_div_r; [assumption|]; rewrite Qmult_1_l, <- Zle_Qle; lia).
assert (Q2 : (inject_Z t / inject_Z D <= inject_Z t' / inject_Z D)%Q).
{ unfold Qdiv. apply Qmult_le_compat_r; [rewrite <- Zle_Qle; lia|]. apply Qlt_le_weak, Qinv_lt_0_compat, PD. }
split; [apply pixels_mono; assumption|]. apply pixels_range; [exact W|lra|exact Q1].
Qed.

Lemma C72_ex_l : exists (l : list (act nat)) x, in_order (l ++ [x]) /\ proper (l ++ [x]) /\
  shows defaultDuration l x = [(-50, 7%nat); (50, 8%nat)].
Proof.
exists [mkAct 0 0 100 7%nat; mkAct 1 1000000000 100 8%nat], (mkAct 0 1150000000 100 8%nat).
split; [cbn; lia|]. split; [repeat constructor; cbn; lia|]. vm_compute. reflexivity.
Qed.

Lemma C73_rest_l : forall (A : Type) D (l : list (act A)) x, (forall z, In z (l ++ [x]) -> dir z <> 0 -> D <= time x - time z) -> shows D l x = [(0, pic x)].
Proof.
intros A D l x K. unfold shows. destruct (last_push None None (l ++ [x])) as [[[d t] old]|] eqn:E; [|reflexivity].
destruct (last_push_split _ _ _ _ _ _ E) as [[? _]|(l1 & z & l2 & E1 & E2 & E3 & E4 & F & E5)]; [discriminate|].
assert (D <= time x - time z) by (apply K; [rewrite E1; apply in_or_app; right; left; reflexivity|congruence]).
destruct (Z.leb_spec D (time x - t)); [reflexivity|lia].
Qed.

Lemma C73_requests_l : forall (A : Type) D (l : list (act A)) x, 0 <= D -> in_order (l ++ [x]) -> proper (l ++ [x]) ->
  let (s, h) := play (idle D) [] l in
  (shows (effective D) l x <> [(0, pic x)] -> snd (fst (show1 x s h)) = true) /\
  (dir x = 0 -> (forall z, In z l -> dir z <> 0 -> effective D <= last (map time l) 0 - time z) -> snd (fst (show1 x s h)) = false).
Proof.
intros A D l x PD Io Pr. pose proof (layout_again D l x PD Io Pr) as La. destruct (play (idle D) [] l) as [s h]. rewrite La. split.
- intro N. destruct (Z.eqb_spec (dir x) 0) as [E|E]; [|reflexivity]. cbn [negb orb]. unfold sliding_before.
  unfold shows in N. rewrite last_push_app in N. cbn [last_push] in N. rewrite E in N. cbn [Z.eqb] in N.
  destruct (last_push None None l) as [[[d t] old]|] eqn:El; [|congruence].
  destruct (Z.leb_spec (effective D) (time x - t)); [congruence|]. apply Z.ltb_lt.
  destruct l as [|y r]; [discriminate|]. destruct (in_order_app (y :: r) [] x Io) as (_ & _ & Lt). specialize (Lt ltac:(discriminate) 0). lia.
- intros E K. rewrite E. cbn [Z.eqb negb orb]. unfold sliding_before. destruct (last_push None None l) as [[[d t] old]|] eqn:El; [|reflexivity].
  apply Z.ltb_ge. destruct (last_push_split _ _ _ _ _ _ El) as [[? _]|(l1 & z & l2 & E1 & E2 & E3 & E4 & F & E5)]; [discriminate|].
  rewrite <- E4. unfold last_time. apply K; [|congruence]. rewrite E1. apply in_or_app. right. left. reflexivity.
Qed.

Lemma C73_ex_l : exists (l : list (act nat)) x, in_order (l ++ [x]) /\ proper (l ++ [x]) /\ shows (effective 0) l x <> [(0, pic x)] /\
  exists l' x', in_order (l' ++ [x']) /\ proper (l' ++ [x']) /\ (exists z, In z l' /\ dir z <> 0) /\
    (forall z, In z (l' ++ [x']) -> dir z <> 0 -> effective 0 <= time x' - time z) /\
    (forall z, In z l' -> dir z <> 0 -> effective 0 <= last (map (@time nat) l') 0 - time z).
Proof.
exists [mkAct 0 0 100 7%nat; mkAct 1 1000000000 100 8%nat], (mkAct 0 1150000000 100 8%nat).
split; [cbn; lia|]. split; [repeat constructor; cbn; lia|]. split; [vm_compute; discriminate|].
exists [mkAct 0 0 100 7%nat; mkAct 1 1000000000 100 8%nat; mkAct 0 2000000000 100 8%nat], (mkAct 0 3000000000 100 8%nat).
split; [cbn; lia|]. split; [repeat constructor; cbn; lia|]. split; [exists (mkAct 1 1000000000 100 8%nat); split; [right; left; reflexivity|cbn; lia]|].
split; intros z K N.
- destruct K as [K|[K|[K|[K|[]]]]]; subst z; try (exfalso; apply N; reflexivity). vm_compute. discriminate.
- destruct K as [K|[K|[K|[]]]]; subst z; try (exfalso; apply N; reflexivity). vm_compute. discriminate.
Qed.

Lemma C74_session_l : forall H T wst u es p, in_order (clock es) -> Forall (fun x => 0 <= width x) (clock es) -> run_s H T wst (prog0 u) es = Ret p ->
  exists l, filmed H T wst u es (a_ui p) l /\
    (l = [] -> window p = []) /\
    (forall l' x, l = l' ++ [x] -> window p = shows (300 * 1000000) l' x /\ in_order l /\ proper l).
Proof.
intros H T wst u es p Io W R. destruct (run_s_filmed H T wst u es Io W p R) as (l & F & SC & Pr & PL & SO).
exists l. split; [exact F|]. split.
- intros ->. exact (proj1 SO).
- intros l' x ->. destruct (l' ++ [x]) as [|y r] eqn:E; [destruct l'; discriminate|]. rewrite <- E in *. destruct SO as (l1 & x1 & E1 & Wi & _).
  apply app_inj_tail in E1. destruct E1 as [-> ->]. split; [exact Wi|]. split; [apply (same_clock_in_order _ _ SC), Io|exact Pr].
Qed.

Lemma C74_no_influence_l : forall H T wst u es, match run_s H T wst (prog0 u) es with
  | Ret p => run H T wst u (map (fun e => fst (fst e)) es) = Ret (a_ui p)
  | Panic => run H T wst u (map (fun e => fst (fst e)) es) = Panic
  end.
Proof.
intros H T wst u es. apply (run_s_erase H T wst es (prog0 u)). reflexivity.
Qed.

Lemma C74_direction_l : forall i u u', tab_bar i u = Ret u' ->
  (turn i u = 0 -> selected u' = selected u) /\
  ((length (tab_clicks i) + (if left_click i then 1 else 0) + (if right_click i then 1 else 0) <= 1)%nat -> turn i u = Z.sgn (selected u' - selected u)).
Proof.
exact turn_direction.
Qed.

Lemma C74_same_wallet_l : forall i u u', tab_bar i u = Ret u' -> tabs u' = tabs u.
Proof.
exact tab_bar_tabs.
Qed.

Lemma C74_ex_l : (exists es p, length (clock es) = 2%nat /\ in_order (clock es) /\ Forall (fun x => 0 <= width x) (clock es) /\
   run_s RealPrims T0 (SetWordList english) (prog0 ui0) es = Ret p /\ tabs (a_ui p) <> []) /\
(exists i u u', tab_bar i u = Ret u' /\ turn i u = 1 /\ selected u' = 2 /\ (length (tab_clicks i) = 1)%nat).
Proof.
split.
- destruct C57_ex_l as (_ & u & R & _ & Tn).
  set (es := [(EditMnemonic (B "abandon"), 0, 0); (Frame quiet_frame, 1000, 100); (EditRoot (B58Serialize RealPrims k1), 0, 0); (Frame quiet_frame, 2000, 100)]).
  pose proof (run_s_erase RealPrims T0 (SetWordList english) es (prog0 ui0) eq_refl) as E. cbn [map fst es a_ui prog0] in E. cbn [app] in R. rewrite R in E.
  destruct (run_s RealPrims T0 (SetWordList english) (prog0 ui0) es) as [p|] eqn:Rs; [|discriminate]. injection E as E.
  exists es, p. cbn [clock flat_map es app length]. split; [reflexivity|]. split; [cbn; lia|]. split; [repeat constructor; cbn; lia|]. split; [exact Rs|]. rewrite <- E. exact Tn.
- exists (mkFrame false [] false false [2%nat]), (set_tabs (repeat (mkKP (B "m") k1) 3) 0 ui0), (set_tabs (repeat (mkKP (B "m") k1) 3) 2 ui0).
  repeat split.
Qed.
