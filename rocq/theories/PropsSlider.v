(** PropsSlider.v - the slider of the example program (C71-C74).
    Every theorem is closed by the lemma of the same name in ClaimsSlider.v; an Example beside it shows that its
    hypotheses can be met. *)
From Verif Require Import Base GoStr Prims Hash Bip39 WordLists WlEnglish AllLists Bip32Path Bip32Reg Bip32 Base58 Util Ui Claims32 ClaimsUtil Claims39 ClaimsUi.
From Coq Require Import QArith Qround Lqa Lia.
From Verif Require Import Slider SpecSlider SliderFacts ClaimsSlider.

(** C71: the easing curve. *)

Theorem C71_smooth_odd : forall u : Q, (smooth (- u) == - smooth u)%Q.
Proof. exact C71_smooth_odd_l. Qed.
Print Assumptions C71_smooth_odd.

Theorem C71_smooth_ends : (smooth 0 == 0 /\ smooth 1 == 1 /\ smooth (-1) == -1)%Q.
Proof. exact C71_smooth_ends_l. Qed.
Print Assumptions C71_smooth_ends.

Theorem C71_smooth_cubic : forall u : Q, (0 <= u -> smooth u == eased u)%Q.
Proof. exact C71_smooth_cubic_l. Qed.
Print Assumptions C71_smooth_cubic.

Theorem C71_smooth_range : forall u : Q, (-1 <= u -> u <= 1 -> -1 <= smooth u /\ smooth u <= 1)%Q.
Proof. exact C71_smooth_range_l. Qed.
Print Assumptions C71_smooth_range.

Theorem C71_smooth_monotone : forall a b : Q, (-1 <= a -> a <= b -> b <= 1 -> smooth a <= smooth b)%Q.
Proof. exact C71_smooth_monotone_l. Qed.
Print Assumptions C71_smooth_monotone.

Theorem C71_smooth_no_jump : forall a b : Q, (-1 <= a -> a <= b -> b <= 1 -> smooth b - smooth a <= 3 * (b - a))%Q.
Proof. exact C71_smooth_no_jump_l. Qed.
Print Assumptions C71_smooth_no_jump.

Example C71_ex : exists a b : Q, (-1 <= a /\ a <= b /\ b <= 1 /\ smooth a == -(1 # 16) /\ smooth b == 15 # 16)%Q.
Proof. exact C71_ex_l. Qed.

(** C72: what a frame of the slider draws is a function of the history of frames and of the clock. *)

Theorem C72_history : forall (A : Type) D (l : list (act A)) x, 0 <= D -> in_order (l ++ [x]) -> proper (l ++ [x]) ->
  let (s, h) := play (idle D) [] l in snd (show1 x s h) = shows (effective D) l x.
Proof. exact C72_history_l. Qed.
Print Assumptions C72_history.

Theorem C72_only_two_pictures : forall (A : Type) D (l : list (act A)) x p a, In (p, a) (shows D l x) -> a = pic x \/
  exists l1 y z l2, l ++ [x] = l1 ++ y :: z :: l2 /\ a = pic y /\ dir z <> 0 /\ Forall (fun y => dir y = 0) l2 /\ time x - time z < D.
Proof. exact C72_only_two_pictures_l. Qed.
Print Assumptions C72_only_two_pictures.

Theorem C72_current_picture : forall (A : Type) D (l : list (act A)) x, exists p, In (p, pic x) (shows D l x).
Proof. exact C72_current_picture_l. Qed.
Print Assumptions C72_current_picture.

Theorem C72_positions : forall (A : Type) D (l l1 l2 : list (act A)) y z x, 0 < D -> in_order (l ++ [x]) -> proper (l ++ [x]) ->
  l ++ [x] = l1 ++ y :: z :: l2 -> dir z <> 0 -> Forall (fun v => dir v = 0) l2 -> time x - time z < D ->
  exists shift, 0 <= shift <= width x /\ (time x = time z -> shift = 0) /\
    shows D l x = [(- dir z * shift, pic y); (- dir z * shift + dir z * width x, pic x)].
Proof. exact C72_positions_l. Qed.
Print Assumptions C72_positions.

Theorem C72_forward : forall D t t' w, 0 < D -> 0 <= w -> 0 <= t -> t <= t' -> t' <= D ->
  pixels (eased (inject_Z t / inject_Z D)) w <= pixels (eased (inject_Z t' / inject_Z D)) w /\ pixels (eased (inject_Z t' / inject_Z D)) w <= w.
Proof. exact C72_forward_l. Qed.
Print Assumptions C72_forward.

Example C72_ex : exists (l : list (act nat)) x, in_order (l ++ [x]) /\ proper (l ++ [x]) /\
  shows defaultDuration l x = [(-50, 7%nat); (50, 8%nat)].
Proof. exact C72_ex_l. Qed.

(** C73: slides end, and frames are requested until they do. *)

Theorem C73_rest : forall (A : Type) D (l : list (act A)) x, (forall z, In z (l ++ [x]) -> dir z <> 0 -> D <= time x - time z) -> shows D l x = [(0, pic x)].
Proof. exact C73_rest_l. Qed.
Print Assumptions C73_rest.

Theorem C73_requests : forall (A : Type) D (l : list (act A)) x, 0 <= D -> in_order (l ++ [x]) -> proper (l ++ [x]) ->
  let (s, h) := play (idle D) [] l in
  (shows (effective D) l x <> [(0, pic x)] -> snd (fst (show1 x s h)) = true) /\
  (dir x = 0 -> (forall z, In z l -> dir z <> 0 -> effective D <= last (map time l) 0 - time z) -> snd (fst (show1 x s h)) = false).
Proof. exact C73_requests_l. Qed.
Print Assumptions C73_requests.

Example C73_ex : exists (l : list (act nat)) x, in_order (l ++ [x]) /\ proper (l ++ [x]) /\ shows (effective 0) l x <> [(0, pic x)] /\
  exists l' x', in_order (l' ++ [x']) /\ proper (l' ++ [x']) /\ (exists z, In z l' /\ dir z <> 0) /\
    (forall z, In z (l' ++ [x']) -> dir z <> 0 -> effective 0 <= time x' - time z) /\
    (forall z, In z l' -> dir z <> 0 -> effective 0 <= last (map (@time nat) l') 0 - time z).
Proof. exact C73_ex_l. Qed.

(** C74: the slider in the example program. *)

Theorem C74_session : forall H T wst u es p, in_order (clock es) -> Forall (fun x => 0 <= width x) (clock es) -> run_s H T wst (prog0 u) es = Ret p ->
  exists l, filmed H T wst u es (a_ui p) l /\
    (l = [] -> window p = []) /\
    (forall l' x, l = l' ++ [x] -> window p = shows (300 * 1000000) l' x /\ in_order l /\ proper l).
Proof. exact C74_session_l. Qed.
Print Assumptions C74_session.

Theorem C74_no_influence : forall H T wst u es, match run_s H T wst (prog0 u) es with
  | Ret p => run H T wst u (map (fun e => fst (fst e)) es) = Ret (a_ui p)
  | Panic => run H T wst u (map (fun e => fst (fst e)) es) = Panic
  end.
Proof. exact C74_no_influence_l. Qed.
Print Assumptions C74_no_influence.

Theorem C74_direction : forall i u u', tab_bar i u = Ret u' ->
  (turn i u = 0 -> selected u' = selected u) /\
  ((length (tab_clicks i) + (if left_click i then 1 else 0) + (if right_click i then 1 else 0) <= 1)%nat -> turn i u = Z.sgn (selected u' - selected u)).
Proof. exact C74_direction_l. Qed.
Print Assumptions C74_direction.

Theorem C74_same_wallet : forall i u u', tab_bar i u = Ret u' -> tabs u' = tabs u.
Proof. exact C74_same_wallet_l. Qed.
Print Assumptions C74_same_wallet.

Example C74_ex : (exists es p, length (clock es) = 2%nat /\ in_order (clock es) /\ Forall (fun x => 0 <= width x) (clock es) /\
   run_s RealPrims T0 (SetWordList english) (prog0 ui0) es = Ret p /\ tabs (a_ui p) <> []) /\
(exists i u u', tab_bar i u = Ret u' /\ turn i u = 1 /\ selected u' = 2 /\ (length (tab_clicks i) = 1)%nat).
Proof. exact C74_ex_l. Qed.
