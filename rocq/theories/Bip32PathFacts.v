(** Bip32PathFacts.v - paths. *)
From Verif Require Import Base BaseFacts GoStr GoStrFacts Rx RxFacts SpecPath Bip32Path Bip32Reg Bip32 Bip32RegFacts Base58Facts.

(** ** Specification vocabulary against the model's *)
Lemma digit_iff c : digit c <-> is_digit c = true.
Proof. unfold digit. split; [cbn; intuition (subst; reflexivity)|]. destruct c; intros H; try discriminate H; cbn; tauto. Qed.
Lemma Forall_digit s : Forall digit s <-> all_digits s.
Proof. unfold all_digits. rewrite forallb_forall, Forall_forall. split; intros H x Hx; apply digit_iff, H, Hx. Qed.
Lemma numeral_iff s : numeral s <-> s <> [] /\ all_digits s.
Proof. unfold numeral. rewrite Forall_digit. tauto. Qed.
Lemma number_dec s : number s = dec_val s.
Proof.
  unfold number, dec_val. generalize 0. induction s as [|c s IH]; intros a; [reflexivity|]. cbn [number_from fold_left].
  rewrite IH. f_equal. ring.
Qed.
Lemma ws_iff c : ws c <-> is_ws c = true.
Proof. unfold ws. split; [cbn; intuition (subst; reflexivity)|]. destruct c; intros H; try discriminate H; cbn; tauto. Qed.
Lemma stripped_iff p s : stripped p s <-> s = PathString p.
Proof.
  split.
  - induction 1 as [|c p s Hc H IH|c p s Hc H IH]; [reflexivity| |]; unfold PathString; cbn [filter].
    + apply ws_iff in Hc. rewrite Hc. exact IH.
    + destruct (is_ws c) eqn:E; [apply ws_iff in E; contradiction|]. cbn [negb]. f_equal. exact IH.
  - intros ->. induction p as [|c p IH]; [constructor|]. unfold PathString. cbn [filter].
    destruct (is_ws c) eqn:E; cbn [negb].
    + apply strip_ws; [apply ws_iff; exact E|exact IH].
    + apply strip_keep; [rewrite ws_iff; congruence|exact IH].
Qed.
Lemma PathString_idem p : PathString (PathString p) = PathString p.
Proof.
  unfold PathString. induction p as [|c p IH]; [reflexivity|]. cbn [filter]. destruct (is_ws c) eqn:E; cbn [negb]; [exact IH|].
  cbn [filter]. rewrite E. cbn [negb]. f_equal. exact IH.
Qed.

(** ** The regular expression *)
Lemma hard_rx_spec s : Matches hard_rx s <-> exists a, numeral a /\ s = hard_text a.
Proof.
  unfold hard_rx, hard_text. split.
  - intros H. apply Matches_cat in H as (u & r & -> & Hu & H). apply Matches_chr in Hu. subst u.
    apply Matches_cat in H as (a & q & -> & Ha & Hq). apply Matches_chr in Hq. subst q.
    apply Matches_plus_cls in Ha as [Ha1 Ha2]. exists a. split; [apply numeral_iff; split; [exact Ha1|exact Ha2]|reflexivity].
  - intros (a & Ha & ->). apply numeral_iff in Ha as [H1 H2].
    apply MCat; [apply Matches_chr; reflexivity|]. apply MCat; [|apply Matches_chr; reflexivity].
    apply Matches_plus_cls. split; assumption.
Qed.
Lemma soft_rx_spec s : Matches soft_rx s <-> exists a, numeral a /\ s = soft_text a.
Proof.
  unfold soft_rx, soft_text. split.
  - intros H. apply Matches_cat in H as (u & a & -> & Hu & Ha). apply Matches_chr in Hu. subst u.
    apply Matches_plus_cls in Ha as [Ha1 Ha2]. exists a. split; [apply numeral_iff; split; [exact Ha1|exact Ha2]|reflexivity].
  - intros (a & Ha & ->). apply numeral_iff in Ha as [H1 H2].
    apply MCat; [apply Matches_chr; reflexivity|]. apply Matches_plus_cls. split; assumption.
Qed.
Lemma star_list r (g : bytes -> bytes) s : (forall s, Matches r s <-> exists a, numeral a /\ s = g a) ->
  (Matches (Rstar r) s <-> exists l, Forall numeral l /\ s = concat (map g l)).
Proof.
  intros HR. rewrite Matches_star. split.
  - intros (l & -> & Hl). induction Hl as [|x l Hx Hl IH]; [exists []; split; [constructor|reflexivity]|].
    destruct IH as (l' & H1 & H2). apply HR in Hx as (a & Ha & ->). exists (a :: l'). split; [constructor; assumption|].
    cbn [concat map]. rewrite H2. reflexivity.
  - intros (l & Hl & ->). exists (map g l). split; [reflexivity|]. apply Forall_map. eapply Forall_impl; [|exact Hl].
    intros a Ha. apply HR. exists a. split; [exact Ha|reflexivity].
Qed.
Lemma is_mM_spec c : is_mM c = true <-> c = x6d \/ c = x4d.
Proof. split; [destruct c; intros H; try discriminate H; tauto|intros [->| ->]; reflexivity]. Qed.
Theorem PathRegex_spec s : rx_match PathRegex s = true <-> exists hs ss, path_grammar s hs ss.
Proof.
  rewrite rx_match_spec. unfold PathRegex. split.
  - intros H. apply Matches_cat in H as (u & r & -> & Hu & H). apply Matches_cls in Hu as (m & -> & Hm).
    apply Matches_cat in H as (h & t & -> & Hh & Ht).
    apply (star_list _ hard_text _ hard_rx_spec) in Hh as (hs & H1 & ->). apply (star_list _ soft_text _ soft_rx_spec) in Ht as (ss & H2 & ->).
    exists hs, ss, m. split; [apply is_mM_spec; exact Hm|]. split; [exact H1|]. split; [exact H2|reflexivity].
  - intros (hs & ss & m & Hm & H1 & H2 & ->). unfold path_text. change (m :: ?r) with ([m] ++ r).
    apply MCat; [constructor; apply is_mM_spec; exact Hm|]. apply MCat.
    + apply (star_list _ hard_text _ hard_rx_spec). exists hs. split; [exact H1|reflexivity].
    + apply (star_list _ soft_text _ soft_rx_spec). exists ss. split; [exact H2|reflexivity].
Qed.

(** ** Splitting *)
(** In proofs; for bip32/path.go:22-107. *)
Definition q (a : bytes) : bytes := a ++ B "'".
Lemma Join_cons w ws : Join (B "/") (w :: ws) = w ++ concat (map soft_text ws).
Proof.
  revert w; induction ws as [|x ws IH]; intros w.
  - cbn. rewrite app_nil_r. reflexivity.
  - change (Join (B "/") (w :: x :: ws)) with (w ++ B "/" ++ Join (B "/") (x :: ws)). rewrite IH. reflexivity.
Qed.
Lemma path_text_Join m hs ss : path_text m hs ss = Join (B "/") ([m] :: map q hs ++ ss).
Proof.
  rewrite Join_cons, map_app, concat_app, map_map. unfold path_text. cbn [app]. f_equal.
Qed.
Lemma q_noslash a : numeral a -> ContainsB x2f (q a) = false.
Proof. intros Ha. apply numeral_iff in Ha as [_ Ha]. unfold q. rewrite ContainsB_app, digit_not_slash by exact Ha. reflexivity. Qed.
Lemma comps_noslash m hs ss : m = x6d \/ m = x4d -> Forall numeral hs -> Forall numeral ss ->
  Forall (fun w => ContainsB x2f w = false) ([m] :: map q hs ++ ss).
Proof.
  intros Hm Hh Hs. constructor; [destruct Hm as [-> | ->]; reflexivity|]. apply Forall_app. split.
  - apply Forall_map. eapply Forall_impl; [|exact Hh]. exact q_noslash.
  - eapply Forall_impl; [|exact Hs]. intros a Ha. apply digit_not_slash. apply numeral_iff in Ha. tauto.
Qed.
Lemma path_split m hs ss : m = x6d \/ m = x4d -> Forall numeral hs -> Forall numeral ss ->
  Split x2f (path_text m hs ss) = [m] :: map q hs ++ ss.
Proof.
  intros. rewrite path_text_Join. change (B "/") with [x2f]. apply Split_Join; [discriminate|]. apply comps_noslash; assumption.
Qed.

(** ** The loop *)
(** In proofs; for bip32/path.go:22-107. *)
Definition hard_ok (a : bytes) : bool := (dec_val a <=? MaxInt) && (u32 (dec_val a) <? FirstHardenedChild).
(** In proofs; for bip32/path.go:22-107. *)
Definition soft_ok (a : bytes) : bool := dec_val a <=? MaxInt.
Lemma u32_range z : 0 <= u32 z < 2 ^ 32.
Proof. apply Z.mod_pos_bound. reflexivity. Qed.
Lemma loop_hard a r acc : numeral a ->
  values_loop acc (q a :: r) = if dec_val a <=? MaxInt then
     if u32 (dec_val a) <? FirstHardenedChild then values_loop (acc ++ [u32 (dec_val a) + FirstHardenedChild]) r
     else (acc, Some ErrUnSupportedOrInvalidPath)
   else (acc, Some ErrRange).
Proof.
  intros Ha. apply numeral_iff in Ha as [H1 H2]. cbn [values_loop].
  assert (ContainsB x27 (q a) = true) as -> by (unfold q; rewrite ContainsB_app; apply orb_true_r).
  unfold q. rewrite quote_removed, Atoi_digits by assumption. rewrite Z.gtb_ltb, Z.ltb_antisym.
  destruct (dec_val a <=? MaxInt); cbn [negb]; [|reflexivity].
  rewrite Z.geb_leb, Z.leb_antisym. destruct (Z.ltb_spec (u32 (dec_val a)) FirstHardenedChild); cbn [negb]; [|reflexivity].
  f_equal. f_equal. f_equal. pose proof (u32_range (dec_val a)). unfold u32 at 1. apply Z.mod_small. unfold FirstHardenedChild, TWO32 in *. lia.
Qed.
Lemma loop_soft a r acc : numeral a ->
  values_loop acc (a :: r) = if dec_val a <=? MaxInt then values_loop (acc ++ [u32 (dec_val a)]) r else (acc, Some ErrRange).
Proof.
  intros Ha. apply numeral_iff in Ha as [H1 H2]. cbn [values_loop]. rewrite digit_not_quote by exact H2.
  rewrite Atoi_digits by assumption. rewrite Z.gtb_ltb, Z.ltb_antisym. destruct (dec_val a <=? MaxInt); reflexivity.
Qed.
(** In proofs; for bip32/path.go:22-107. *)
Definition vals_of (hs ss : list bytes) : list Z :=
  map (fun a => u32 (dec_val a) + FirstHardenedChild) hs ++ map (fun a => u32 (dec_val a)) ss.
Lemma loop_softs ss : forall acc, Forall numeral ss ->
  (forallb soft_ok ss = true -> values_loop acc ss = (acc ++ map (fun a => u32 (dec_val a)) ss, None)) /\
  (forallb soft_ok ss = false -> snd (values_loop acc ss) <> None).
Proof.
  induction ss as [|a ss IH]; intros acc H.
  - split; [intros _; cbn; rewrite app_nil_r; reflexivity|discriminate].
  - inversion H as [|? ? Ha Hs]; subst. rewrite loop_soft by exact Ha. cbn [forallb]. unfold soft_ok at 1 3.
    destruct (dec_val a <=? MaxInt); cbn [andb]; [|split; [discriminate|intros _; discriminate]].
    destruct (IH (acc ++ [u32 (dec_val a)]) Hs) as [I1 I2]. split; [|exact I2].
    intros E. rewrite I1 by exact E. cbn [map]. rewrite <- app_assoc. reflexivity.
Qed.
Lemma loop_all hs ss : forall acc, Forall numeral hs -> Forall numeral ss ->
  (forallb hard_ok hs && forallb soft_ok ss = true -> values_loop acc (map q hs ++ ss) = (acc ++ vals_of hs ss, None)) /\
  (forallb hard_ok hs && forallb soft_ok ss = false -> snd (values_loop acc (map q hs ++ ss)) <> None).
Proof.
  induction hs as [|a hs IH]; intros acc H Hs; [apply loop_softs; exact Hs|].
  inversion H as [|? ? Ha Hh]; subst. cbn [map app]. rewrite loop_hard by exact Ha. cbn [forallb]. unfold hard_ok at 1 3.
  destruct (dec_val a <=? MaxInt); cbn [andb]; [|split; [discriminate|intros _; discriminate]].
  destruct (u32 (dec_val a) <? FirstHardenedChild); cbn [andb]; [|split; [discriminate|intros _; discriminate]].
  destruct (IH (acc ++ [u32 (dec_val a) + FirstHardenedChild]) Hh Hs) as [I1 I2]. split; [|exact I2].
  intros E. rewrite I1 by exact E. unfold vals_of. cbn [map app]. rewrite <- app_assoc. reflexivity.
Qed.

(** ** ValuesAtDepth *)
Theorem Values_grammar p hs ss : path_grammar (PathString p) hs ss ->
  (forallb hard_ok hs && forallb soft_ok ss = true -> ValuesAtDepth p = (0 :: vals_of hs ss, None)) /\
  (forallb hard_ok hs && forallb soft_ok ss = false -> snd (ValuesAtDepth p) <> None).
Proof.
  intros G. unfold ValuesAtDepth. assert (rx_match PathRegex (PathString p) = true) as -> by (apply PathRegex_spec; exists hs, ss; exact G).
  cbn [negb]. destruct G as (m & Hm & Hh & Hs & ->). rewrite path_split by assumption. cbn [tl].
  exact (loop_all hs ss [0] Hh Hs).
Qed.
Theorem Values_valid p l : ValuesAtDepth p = (l, None) <->
  exists hs ss, path_grammar (PathString p) hs ss /\ forallb hard_ok hs = true /\ forallb soft_ok ss = true /\ l = 0 :: vals_of hs ss.
Proof.
  split.
  - intros E. destruct (rx_match PathRegex (PathString p)) eqn:R.
    + apply PathRegex_spec in R as (hs & ss & G). destruct (Values_grammar p hs ss G) as [V1 V2].
      destruct (forallb hard_ok hs && forallb soft_ok ss) eqn:B.
      * rewrite V1 in E by reflexivity. injection E as <-. apply andb_true_iff in B as [B1 B2]. exists hs, ss. tauto.
      * exfalso. apply (V2 eq_refl). rewrite E. reflexivity.
    + unfold ValuesAtDepth in E. rewrite R in E. discriminate.
  - intros (hs & ss & G & B1 & B2 & ->). apply (proj1 (Values_grammar p hs ss G)). rewrite B1, B2. reflexivity.
Qed.
Lemma PathIsValid_spec p : PathIsValid p = true <-> exists l, ValuesAtDepth p = (l, None).
Proof.
  unfold PathIsValid. destruct (ValuesAtDepth p) as [l [e|]]; split; try discriminate; try reflexivity; intros.
  - destruct H as (l' & E). discriminate.
  - exists l. reflexivity.
Qed.
Lemma hard_ok_spec a : all_digits a -> (hard_ok a = true <-> dec_val a <= MaxInt /\ dec_val a mod 2 ^ 32 < 2 ^ 31).
Proof. intros Ha. unfold hard_ok, u32, TWO32, FirstHardenedChild. change (2 ^ 32) with 4294967296. change (2 ^ 31) with 2147483648. lia. Qed.
Lemma ValuesAtDepth_String p : ValuesAtDepth (PathString p) = ValuesAtDepth p.
Proof. unfold ValuesAtDepth. rewrite PathString_idem. reflexivity. Qed.

(** ** Printing numbers *)
Lemma Itoa_pos n : 0 < n -> Itoa n = rev (map (fun d => bZ (48 + d)) (digits 10 n)).
Proof. intros H. unfold Itoa. assert (n <=? 0 = false) as -> by lia. reflexivity. Qed.
Lemma dig_byte d : 0 <= d < 10 -> Zb (bZ (48 + d)) = 48 + d.
Proof. intros H. rewrite Zb_bZ. apply Z.mod_small. lia. Qed.
Lemma dec_val_rev ds : Forall (fun d => 0 <= d < 10) ds -> dec_val (rev (map (fun d => bZ (48 + d)) ds)) = eval_le 10 ds.
Proof.
  induction 1 as [|d ds Hd H IH]; [reflexivity|]. cbn [map rev]. rewrite dec_val_snoc, IH, dig_byte by exact Hd.
  change (eval_le 10 (d :: ds)) with (d + 10 * eval_le 10 ds). ring.
Qed.
Lemma Itoa_numeral n : 0 <= n -> numeral (Itoa n).
Proof.
  intros Hn. apply numeral_iff. destruct (Z.eq_dec n 0) as [->|N]; [split; [discriminate|reflexivity]|].
  rewrite Itoa_pos by lia. split.
  - intros C. apply (f_equal (@rev byte)) in C. rewrite rev_involutive in C. apply map_eq_nil in C.
    pose proof (digits_eval 10 n ltac:(lia) Hn) as E. rewrite C in E. cbn in E. lia.
  - apply Forall_digit. apply Forall_rev. apply Forall_map. eapply Forall_impl; [|apply (digits_range 10 n); lia].
    intros d Hd. apply digit_iff. unfold is_digit, in_rng. cbv beta in Hd. rewrite dig_byte by exact Hd. lia.
Qed.
Lemma dec_Itoa n : 0 <= n -> dec_val (Itoa n) = n.
Proof.
  intros Hn. destruct (Z.eq_dec n 0) as [->|N]; [reflexivity|]. rewrite Itoa_pos by lia.
  rewrite dec_val_rev by (apply digits_range; lia). apply digits_eval; lia.
Qed.
Lemma u32_small z : 0 <= z < 2 ^ 32 -> u32 z = z.
Proof. intros H. apply Z.mod_small. exact H. Qed.

(** A printed path parses back. *)
(** In proofs; for bip32/path.go:22-107. *)
Definition printed (hs ss : list Z) : bytes := path_text x6d (map Itoa hs) (map Itoa ss).
Lemma PathString_nows s : Forall (fun c => is_ws c = false) s -> PathString s = s.
Proof. unfold PathString. induction 1 as [|c s Hc H IH]; [reflexivity|]. cbn [filter]. rewrite Hc. cbn [negb]. f_equal. exact IH. Qed.
Lemma digit_nows c : digit c -> is_ws c = false.
Proof. unfold digit. cbn. intuition (subst; reflexivity). Qed.
Lemma path_text_nows m hs ss : m = x6d \/ m = x4d -> Forall numeral hs -> Forall numeral ss ->
  Forall (fun c => is_ws c = false) (path_text m hs ss).
Proof.
  intros Hm Hh Hs. unfold path_text. constructor; [destruct Hm as [-> | ->]; reflexivity|].
  assert (N : forall a, numeral a -> Forall (fun c => is_ws c = false) a).
  { intros a [_ Ha]. eapply Forall_impl; [|exact Ha]. exact digit_nows. }
  apply Forall_app. split.
  - apply Forall_concat. apply Forall_map. eapply Forall_impl; [|exact Hh]. intros a Ha.
    unfold hard_text. apply Forall_app. split; [repeat constructor|]. apply Forall_app. split; [apply N; exact Ha|repeat constructor].
  - apply Forall_concat. apply Forall_map. eapply Forall_impl; [|exact Hs]. intros a Ha.
    unfold soft_text. apply Forall_app. split; [repeat constructor|apply N; exact Ha].
Qed.
Theorem printed_values hs ss : Forall (fun v => 0 <= v < 2 ^ 31) hs -> Forall (fun v => 0 <= v < 2 ^ 32) ss ->
  ValuesAtDepth (printed hs ss) = (0 :: map (fun v => v + 2 ^ 31) hs ++ ss, None).
Proof.
  intros Hh Hs.
  assert (Nh : Forall numeral (map Itoa hs)) by (apply Forall_map; eapply Forall_impl; [|exact Hh]; intros v Hv; cbv beta in Hv; apply Itoa_numeral; lia).
  assert (Ns : Forall numeral (map Itoa ss)) by (apply Forall_map; eapply Forall_impl; [|exact Hs]; intros v Hv; cbv beta in Hv; apply Itoa_numeral; lia).
  assert (G : path_grammar (PathString (printed hs ss)) (map Itoa hs) (map Itoa ss)).
  { exists x6d. split; [left; reflexivity|]. split; [exact Nh|]. split; [exact Ns|].
    apply PathString_nows. apply path_text_nows; [left; reflexivity|assumption..]. }
  apply Values_valid. exists (map Itoa hs), (map Itoa ss). split; [exact G|].
  split; [|split].
  - apply forallb_forall. intros a Ha. apply in_map_iff in Ha as (v & <- & Hv). rewrite Forall_forall in Hh. specialize (Hh v Hv). cbv beta in Hh.
    unfold hard_ok. rewrite dec_Itoa by lia. rewrite u32_small by lia. unfold MaxInt, FirstHardenedChild. lia.
  - apply forallb_forall. intros a Ha. apply in_map_iff in Ha as (v & <- & Hv). rewrite Forall_forall in Hs. specialize (Hs v Hv). cbv beta in Hs.
    unfold soft_ok. rewrite dec_Itoa by lia. unfold MaxInt. lia.
  - f_equal. unfold vals_of. rewrite !map_map. f_equal.
    + apply map_ext_in. intros v Hv. rewrite Forall_forall in Hh. specialize (Hh v Hv). cbv beta in Hh. rewrite dec_Itoa, u32_small by lia. reflexivity.
    + rewrite <- (map_id ss) at 1. apply map_ext_in. intros v Hv. rewrite Forall_forall in Hs. specialize (Hs v Hv). cbv beta in Hs. rewrite dec_Itoa, u32_small by lia. reflexivity.
Qed.

(** ** ValueAtDepth *)
Theorem ValueAtDepth_spec p b : ValueAtDepth p b = Ret (
  match ValuesAtDepth p with
  | (_, Some e) => (0, Some e)
  | (vals, None) => if Zb b <? Z.of_nat (length vals) mod 256 then (nth (Z.to_nat (Zb b)) vals 0, None)
                    else (0, Some ErrUnSupportedOrInvalidPath)
  end).
Proof.
  unfold ValueAtDepth. destruct (ValuesAtDepth p) as [vals [e|]]; [reflexivity|]. rewrite Zb_bZ.
  destruct (Z.ltb_spec (Zb b) (Z.of_nat (length vals) mod 256)) as [L|L]; cbn [negb]; [|reflexivity].
  pose proof (Zb_range b). pose proof (Z.mod_le (Z.of_nat (length vals)) 256 ltac:(lia) ltac:(lia)).
  rewrite (nth_error_nth' vals 0) by lia. reflexivity.
Qed.

(** ** ReplaceValueAtDepth *)
(** In proofs; for bip32/path.go:22-107. *)
Definition replaced {A} (n : nat) (x : A) (l : list A) : list A := firstn n l ++ x :: skipn (S n) l.
Lemma replaced_length {A} n (x : A) l : (n < length l)%nat -> length (replaced n x l) = length l.
Proof. intros H. unfold replaced. rewrite app_length, firstn_length. cbn [length]. rewrite skipn_length. lia. Qed.
Lemma vals_length hs ss m : m = x6d \/ m = x4d -> Forall numeral hs -> Forall numeral ss ->
  length (Split x2f (path_text m hs ss)) = length (0 :: vals_of hs ss).
Proof. intros. rewrite path_split by assumption. unfold vals_of. cbn [length]. rewrite !app_length, !map_length. reflexivity. Qed.
Theorem Replace_spec p b val : ReplaceValueAtDepth p b val = Ret (
  match ValuesAtDepth p with
  | (_, Some e) => (p, Some e)
  | (vals, None) => if Zb b <? Z.of_nat (length vals) mod 256
      then (Join (B "/") (replaced (Z.to_nat (Zb b)) (val_text val) (Split x2f (PathString p))), None)
      else (p, Some ErrUnSupportedOrInvalidPath)
  end).
Proof.
  unfold ReplaceValueAtDepth. destruct (ValuesAtDepth p) as [vals [e|]] eqn:E; [reflexivity|]. rewrite Zb_bZ.
  destruct (Z.ltb_spec (Zb b) (Z.of_nat (length vals) mod 256)) as [L|L]; cbn [negb]; [|reflexivity].
  pose proof (Zb_range b). pose proof (Z.mod_le (Z.of_nat (length vals)) 256 ltac:(lia) ltac:(lia)).
  apply Values_valid in E as (hs & ss & (m & Hm & Hh & Hs & EP) & _ & _ & ->).
  pose proof (vals_length hs ss m Hm Hh Hs) as LL. rewrite <- EP in LL. unfold set_nth.
  destruct (Nat.ltb_spec (Z.to_nat (Zb b)) (length (Split x2f (PathString p)))) as [Q|Q]; [reflexivity|].
  exfalso. lia.
Qed.

(** Value of one component of a valid path. *)
(** In proofs; for bip32/path.go:22-107. *)
Definition comp_value (s : bytes) : Z :=
  if ContainsB x27 s then u32 (dec_val (RemoveB x27 s)) + FirstHardenedChild else u32 (dec_val s).
Lemma vals_of_comps hs ss : Forall numeral hs -> Forall numeral ss -> vals_of hs ss = map comp_value (map q hs ++ ss).
Proof.
  intros Hh Hs. unfold vals_of. rewrite map_app, map_map. f_equal; apply map_ext_in; intros a Ha.
  - rewrite Forall_forall in Hh. specialize (Hh a Ha). apply numeral_iff in Hh as [H1 H2]. unfold comp_value.
    assert (ContainsB x27 (q a) = true) as -> by (unfold q; rewrite ContainsB_app; apply orb_true_r).
    unfold q. rewrite quote_removed by exact H2. reflexivity.
  - rewrite Forall_forall in Hs. specialize (Hs a Ha). apply numeral_iff in Hs as [H1 H2]. unfold comp_value.
    rewrite digit_not_quote by exact H2. reflexivity.
Qed.
Lemma val_text_value val : 0 <= val < 2 ^ 32 -> comp_value (val_text val) = val.
Proof.
  intros Hv. unfold val_text. rewrite Z.geb_leb. destruct (Z.leb_spec FirstHardenedChild val) as [L|L]; unfold FirstHardenedChild in *.
  - set (r := val mod 2147483648). assert (Hr : 0 <= r < 2147483648) by (apply Z.mod_pos_bound; lia).
    unfold comp_value. assert (ContainsB x27 (Itoa r ++ B "'") = true) as -> by (rewrite ContainsB_app; apply orb_true_r).
    rewrite quote_removed by (apply numeral_iff, Itoa_numeral; lia). rewrite dec_Itoa, u32_small by lia. unfold FirstHardenedChild.
    unfold r. change 4294967296 with (2 * 2147483648) in Hv.
    replace val with (val - 2147483648 + 1 * 2147483648) at 1 by ring. rewrite Z_mod_plus_full, Z.mod_small by lia. lia.
  - unfold comp_value. rewrite digit_not_quote by (apply numeral_iff, Itoa_numeral; lia). rewrite dec_Itoa, u32_small by lia. reflexivity.
Qed.
Lemma val_text_noslash val : 0 <= val -> ContainsB x2f (val_text val) = false.
Proof.
  intros Hv. unfold val_text. destruct (val >=? FirstHardenedChild).
  - apply q_noslash. apply Itoa_numeral. apply Z.mod_pos_bound. reflexivity.
  - apply digit_not_slash. apply numeral_iff, Itoa_numeral. exact Hv.
Qed.
(** Values of a valid path from its components. *)
Lemma valid_components p l : ValuesAtDepth p = (l, None) ->
  exists m, (m = x6d \/ m = x4d) /\ Split x2f (PathString p) = [m] :: tl (Split x2f (PathString p)) /\
    l = 0 :: map comp_value (tl (Split x2f (PathString p))).
Proof.
  intros E. apply Values_valid in E as (hs & ss & (m & Hm & Hh & Hs & EP) & _ & _ & ->). exists m. split; [exact Hm|].
  rewrite EP, path_split by assumption. cbn [tl]. split; [reflexivity|]. rewrite vals_of_comps by assumption. reflexivity.
Qed.
Lemma val_text_nows val : 0 <= val -> Forall (fun c => is_ws c = false) (val_text val).
Proof.
  intros Hv. assert (N : forall a, numeral a -> Forall (fun c => is_ws c = false) a).
  { intros a [_ Ha]. eapply Forall_impl; [|exact Ha]. exact digit_nows. }
  unfold val_text. destruct (val >=? FirstHardenedChild).
  - apply Forall_app. split; [apply N, Itoa_numeral, Z.mod_pos_bound; reflexivity|repeat constructor].
  - apply N, Itoa_numeral. exact Hv.
Qed.
Lemma PathString_nows_iff p : Forall (fun c => is_ws c = false) (PathString p).
Proof. apply Forall_forall. intros c Hc. apply filter_In in Hc as [_ Hc]. destruct (is_ws c); [discriminate|reflexivity]. Qed.
Lemma in_Split sep s w c : In w (Split sep s) -> In c w -> In c s.
Proof.
  revert w. induction s as [|x s IH]; intros w Hw Hc.
  - destruct Hw as [<-|[]]. exact Hc.
  - cbn [Split] in Hw. destruct (Byte.eqb x sep).
    + destruct Hw as [<-|Hw]; [destruct Hc|]. right. apply (IH w); assumption.
    + pose proof (Split_nonempty sep s). destruct (Split sep s) as [|u us]; [congruence|].
      destruct Hw as [<-|Hw].
      * destruct Hc as [->|Hc]; [left; reflexivity|]. right. apply (IH u); [left; reflexivity|exact Hc].
      * right. apply (IH w); [right; exact Hw|exact Hc].
Qed.
Lemma in_Join sep ws c : In c (Join sep ws) -> In c sep \/ exists w, In w ws /\ In c w.
Proof.
  induction ws as [|w ws IH]; [intros []|]. destruct ws as [|x ws].
  - intros H. right. exists w. split; [left; reflexivity|exact H].
  - change (Join sep (w :: x :: ws)) with (w ++ sep ++ Join sep (x :: ws)). intros H.
    apply in_app_or in H as [H|H]; [right; exists w; split; [left; reflexivity|exact H]|].
    apply in_app_or in H as [H|H]; [left; exact H|]. destruct (IH H) as [|(u & Hu & Hc)]; [tauto|].
    right. exists u. split; [right; exact Hu|exact Hc].
Qed.
Lemma in_replaced {A} n (x y : A) l : In y (replaced n x l) -> y = x \/ In y l.
Proof.
  unfold replaced. intros H. apply in_app_or in H as [H|[H|H]]; [right|left; congruence|right].
  - rewrite <- (firstn_skipn n l). apply in_or_app. left. exact H.
  - rewrite <- (firstn_skipn (S n) l). apply in_or_app. right. exact H.
Qed.
(** The text returned by ReplaceValueAtDepth contains no white space and splits into the replaced components. *)
Lemma replaced_text p n val : 0 <= val ->
  let r := Join (B "/") (replaced n (val_text val) (Split x2f (PathString p))) in
  PathString r = r /\ Split x2f r = replaced n (val_text val) (Split x2f (PathString p)).
Proof.
  intros Hv r. split.
  - apply PathString_nows. apply Forall_forall. intros c Hc. apply in_Join in Hc as [Hc|(w & Hw & Hc)].
    + destruct Hc as [<-|[]]. reflexivity.
    + apply in_replaced in Hw as [->|Hw].
      * exact (proj1 (Forall_forall _ _) (val_text_nows val Hv) c Hc).
      * exact (proj1 (Forall_forall _ _) (PathString_nows_iff p) c (in_Split _ _ _ _ Hw Hc)).
  - unfold r. change (B "/") with [x2f]. apply Split_Join.
    + unfold replaced. intros C. apply app_eq_nil in C as [_ C]. discriminate.
    + apply Forall_forall. intros w Hw. apply in_replaced in Hw as [->|Hw]; [apply val_text_noslash; exact Hv|].
      exact (proj1 (Forall_forall _ _) (Split_no_sep x2f (PathString p)) w Hw).
Qed.
Lemma map_replaced {A C} (g : A -> C) n x l : map g (replaced n x l) = replaced n (g x) (map g l).
Proof. unfold replaced. rewrite map_app, firstn_map. cbn [map]. rewrite skipn_map. reflexivity. Qed.
Theorem Replace_values p l n val r : ValuesAtDepth p = (l, None) -> (1 <= n < length l)%nat -> 0 <= val < 2 ^ 32 ->
  r = Join (B "/") (replaced n (val_text val) (Split x2f (PathString p))) ->
  forall l', ValuesAtDepth r = (l', None) -> l' = replaced n val l.
Proof.
  intros E Hn Hv Er l' E'. destruct (replaced_text p n val ltac:(lia)) as [T1 T2]. rewrite <- Er in T1, T2.
  destruct (valid_components p l E) as (m & Hm & ES & ->). destruct (valid_components r l' E') as (m' & Hm' & ES' & ->).
  rewrite T1, T2, ES. destruct n as [|n]; [lia|].
  change (0 :: map comp_value (replaced n (val_text val) (tl (Split x2f (PathString p)))) =
          0 :: replaced n val (map comp_value (tl (Split x2f (PathString p))))). rewrite map_replaced, val_text_value by exact Hv. reflexivity.
Qed.
(** Depth 0: the leading m is overwritten, the result is never a path. *)
Theorem Replace_zero p val : 0 <= val -> snd (ValuesAtDepth (Join (B "/") (replaced 0 (val_text val) (Split x2f (PathString p))))) <> None.
Proof.
  intros Hv C. destruct (replaced_text p 0 val Hv) as [T1 T2].
  destruct (ValuesAtDepth (Join (B "/") (replaced 0 (val_text val) (Split x2f (PathString p))))) as [l e] eqn:E. cbn [snd] in C. subst e.
  destruct (valid_components _ l E) as (m & Hm & ES & _). rewrite T1, T2 in ES. unfold replaced in ES. cbn [firstn app tl] in ES.
  injection ES as ES. assert (D : exists c r, val_text val = c :: r /\ digit c).
  { unfold val_text. destruct (val >=? FirstHardenedChild).
    - destruct (Itoa_numeral (val mod FirstHardenedChild)) as [N D]; [apply Z.mod_pos_bound; reflexivity|].
      destruct (Itoa (val mod FirstHardenedChild)) as [|c t]; [congruence|]. inversion D; subst. exists c, (t ++ B "'"). split; [reflexivity|assumption].
    - destruct (Itoa_numeral val Hv) as [N D]. destruct (Itoa val) as [|c t]; [congruence|]. inversion D; subst. exists c, t. split; [reflexivity|assumption]. }
  destruct D as (c & t & Ec & Hc). rewrite Ec in ES. injection ES as -> _.
  destruct Hm as [-> | ->]; revert Hc; unfold digit; cbn; intuition discriminate.
Qed.
