(** Bip44Facts.v - lemmas about the model of the bip44 package. *)
From Verif Require Import Base BaseFacts GoStr GoStrFacts Bip44 SpecCoins.
From Coq Require Import Permutation Sorted.

(** ** Blank strings *)
Lemma decode_space w s : In w space_chars -> is_space (fst (decode_rune (w ++ s))) = true /\ snd (decode_rune (w ++ s)) = length w.
Proof.
  intros H. unfold space_chars in H.
  repeat (destruct H as [<-|H]; [split; reflexivity|]). destruct H.
Qed.
Lemma decode_space_inv a s : is_space (fst (decode_rune (a :: s))) = true ->
  In (firstn (snd (decode_rune (a :: s))) (a :: s)) space_chars.
Proof.
  unfold decode_rune. pose proof (Zb_range a) as Ra.
  destruct (Zb a <? 128) eqn:E.
  { cbn [fst snd firstn]. intros H. clear s. revert E H. destruct a; intros E H; try discriminate E; try discriminate H; cbn; tauto. }
  destruct (in_rng 194 223 a) eqn:E2.
  { destruct s as [|b s]; [discriminate|]. destruct (cont b) eqn:Cb; [|discriminate]. cbn [fst snd firstn]. intros H.
    assert (A : (a = xc2 /\ b = x85) \/ (a = xc2 /\ b = xa0)).
    { unfold cont, in_rng in *. pose proof (Zb_range b). unfold is_space in H.
      assert (Zb a = 194 /\ (Zb b = 133 \/ Zb b = 160)) as [Ha Hb] by lia.
      change 194 with (Zb xc2) in Ha. change 133 with (Zb x85) in Hb. change 160 with (Zb xa0) in Hb. apply Zb_inj in Ha.
      destruct Hb as [Hb|Hb]; apply Zb_inj in Hb; auto. }
    destruct A as [[-> ->]|[-> ->]]; cbn; tauto. }
  destruct (in_rng 224 239 a) eqn:E3.
  { destruct s as [|b [|c s]]; [discriminate..|].
    destruct (in_rng _ _ b && cont c) eqn:Cb; [|discriminate]. cbn [fst snd firstn]. intros H.
    apply andb_true_iff in Cb as [Cb Cc].
    assert (Rb : 128 <= Zb b <= 191) by (unfold in_rng in Cb; destruct (Zb a =? 224), (Zb a =? 237); lia).
    assert (Rb' : Zb a = 224 -> 160 <= Zb b) by (intros K; rewrite K in Cb; unfold in_rng in Cb; cbn in Cb; lia). clear Cb.
    unfold cont, in_rng in Cc, E3. unfold is_space in H.
    assert (K : (Zb a = 225 /\ Zb b = 154 /\ Zb c = 128) \/ (Zb a = 226 /\ Zb b = 128 /\ 128 <= Zb c <= 138) \/
      (Zb a = 226 /\ Zb b = 128 /\ (Zb c = 168 \/ Zb c = 169 \/ Zb c = 175)) \/ (Zb a = 226 /\ Zb b = 129 /\ Zb c = 159) \/ (Zb a = 227 /\ Zb b = 128 /\ Zb c = 128)) by lia.
    clear -K.
    assert (Z1 : forall x y, Zb x = y -> x = bZ y) by (intros x y <-; symmetry; apply bZ_Zb).
    destruct K as [(A & B' & C)|[(A & B' & C)|[(A & B' & C)|[(A & B' & C)|(A & B' & C)]]]]; apply Z1 in A, B'; subst a b.
    - apply Z1 in C; subst c. cbn. tauto.
    - assert (D : exists k, (k < 11)%nat /\ Zb c = 128 + Z.of_nat k) by (exists (Z.to_nat (Zb c - 128)); lia).
      destruct D as (k & Hk & D). apply Z1 in D. subst c.
      do 11 (destruct k as [|k]; [cbn; tauto|]). lia.
    - destruct C as [C|[C|C]]; apply Z1 in C; subst c; cbn; tauto.
    - apply Z1 in C; subst c. cbn. tauto.
    - apply Z1 in C; subst c. cbn. tauto. }
  destruct (in_rng 240 244 a) eqn:E4; [|discriminate].
  destruct s as [|b [|c [|d s]]]; [discriminate..|].
  destruct (in_rng _ _ b && cont c && cont d) eqn:Cb; [|discriminate]. cbn [fst snd firstn]. intros H. exfalso.
  apply andb_true_iff in Cb as [Cb Cd]. apply andb_true_iff in Cb as [Cb Cc].
  unfold cont, in_rng in *. unfold is_space in H.
  assert (Rb : 128 <= Zb b <= 191) by (destruct (Zb a =? 240), (Zb a =? 244); lia).
  assert (Rb' : Zb a = 240 -> 144 <= Zb b) by (intros K; rewrite K in Cb; cbn in Cb; lia). lia.
Qed.
Lemma blank_runes s : blank s <-> forallb snd (runes_of s) = true.
Proof.
  split.
  - intros (ws & H & ->). induction H as [|w ws Hw _ IH]; [reflexivity|]. cbn [concat].
    destruct (decode_space w (concat ws) Hw) as [D1 D2].
    assert (w ++ concat ws <> []) as Hn by (intros E; apply app_eq_nil in E as [-> _]; unfold space_chars in Hw; repeat (destruct Hw as [Hw|Hw]; [discriminate Hw|]); destruct Hw).
    rewrite runes_of_cons by exact Hn. rewrite D1, D2. cbn [forallb snd].
    rewrite skipn_app, skipn_all, Nat.sub_diag. exact IH.
  - revert s. apply (len_ind (fun s => forallb snd (runes_of s) = true -> blank s)). intros s IH H.
    destruct s as [|a s]; [exists []; split; [constructor|reflexivity]|].
    pose proof (decode_rune_width (a :: s) ltac:(discriminate)) as W.
    rewrite runes_of_cons in H by discriminate. cbn [forallb snd] in H. apply andb_true_iff in H as [H1 H2].
    pose proof (decode_space_inv _ _ H1) as I. apply IH in H2; [|rewrite skipn_length; lia].
    destruct H2 as (ws & Hws & E). exists (firstn (snd (decode_rune (a :: s))) (a :: s) :: ws). split; [constructor; assumption|].
    cbn [concat]. rewrite <- E. symmetry. apply firstn_skipn.
Qed.
Lemma drop_spaces_nil l : drop_spaces l = [] <-> forallb snd l = true.
Proof. induction l as [|[c []] l IH]; cbn; [tauto|exact IH|split; discriminate]. Qed.
Lemma drop_spaces_rest l : forall c r, drop_spaces l = c :: r -> snd c = false.
Proof. induction l as [|[c []] l IH]; intros d r E; cbn in E; [discriminate|eapply IH; exact E|injection E as <- _; reflexivity]. Qed.
Lemma TrimSpace_blank s : TrimSpace s = [] <-> blank s.
Proof.
  rewrite blank_runes. unfold TrimSpace. rewrite <- drop_spaces_nil.
  split.
  - intros E. destruct (drop_spaces (runes_of s)) as [|c l] eqn:D; [reflexivity|]. exfalso.
    pose proof (drop_spaces_rest _ _ _ D) as F.
    assert (Ne : drop_spaces (rev (c :: l)) <> []).
    { intros K. apply drop_spaces_nil in K. rewrite forallb_forall in K. specialize (K c). rewrite <- in_rev in K.
      rewrite F in K. discriminate K. left; reflexivity. }
    destruct (drop_spaces (rev (c :: l))) as [|d r] eqn:D2; [now elim Ne|].
    assert (Hin : In d (runes_of s)).
    { assert (Sub : forall l x, In x (drop_spaces l) -> In x l).
      { clear. induction l as [|[c []] l IH]; intros x Hx; cbn in Hx |- *; auto. }
      apply Sub. rewrite D. apply in_rev. apply Sub. rewrite D2. left; reflexivity. }
    destruct d as [d f]. apply runes_nonempty in Hin. cbn [rev] in E. rewrite map_app, concat_app in E. apply app_eq_nil in E as [_ E].
    cbn in E. rewrite app_nil_r in E. contradiction.
  - intros ->. reflexivity.
Qed.
Lemma CoinIsValid_iff c : coin_range c -> CoinIsValid c = true <-> coin_ok c.
Proof.
  intros [Rt Rp]. change (2 ^ 32) with 4294967296 in *. unfold CoinIsValid, coin_ok. change (2 ^ 31) with 2147483648.
  rewrite <- !TrimSpace_blank. change (u32 (CType c + 0x80000000)) with ((CType c + 2147483648) mod 4294967296).
  rewrite !andb_true_iff, negb_true_iff.
  assert (N : bytes_eqb (TrimSpace (CName c) ++ TrimSpace (Symbol c)) [] = false <-> ~ (TrimSpace (CName c) = [] /\ TrimSpace (Symbol c) = [])).
  { destruct (TrimSpace (CName c)), (TrimSpace (Symbol c)); cbn; split; try discriminate; try tauto; try (intros K; exfalso; apply K; split; reflexivity); intros _ [H1 H2]; discriminate. }
  rewrite N. split.
  - intros [[[A H1] H2] H3]. split; [exact A|]. rewrite Z.mod_small in H3 by lia. lia.
  - intros (A & H1 & H2). repeat split; [exact A|lia..|]. rewrite Z.mod_small by lia. lia.
Qed.

(** ** The order on strings *)
Lemma bytes_ltb_irrefl a : bytes_ltb a a = false.
Proof. induction a as [|x a IH]; [reflexivity|]. cbn. rewrite Z.eqb_refl. exact IH. Qed.
Lemma bytes_ltb_trans a : forall b c, bytes_ltb a b = true -> bytes_ltb b c = true -> bytes_ltb a c = true.
Proof.
  induction a as [|x a IH]; intros [|y b] [|z c]; cbn; try discriminate; try reflexivity.
  destruct (Zb x =? Zb y) eqn:E1, (Zb y =? Zb z) eqn:E2; intros H1 H2.
  - replace (Zb x =? Zb z) with true by lia. eapply IH; eassumption.
  - replace (Zb x =? Zb z) with false by lia. lia.
  - replace (Zb x =? Zb z) with false by lia. lia.
  - replace (Zb x =? Zb z) with false by lia. lia.
Qed.
Lemma bytes_ltb_total a : forall b, bytes_ltb a b = false -> bytes_ltb b a = false -> a = b.
Proof.
  induction a as [|x a IH]; intros [|y b]; cbn; try discriminate; try reflexivity.
  rewrite (Z.eqb_sym (Zb y)). destruct (Zb x =? Zb y) eqn:E; intros H1 H2; [|lia].
  f_equal; [apply Zb_inj; lia|apply IH; assumption].
Qed.
(** not greater *)
(** In proofs; for bip44/coins.go:1151-1164. *)
Definition le_name (a b : Coin) : Prop := bytes_ltb (CName b) (CName a) = false.
Lemma le_name_trans a b c : le_name a b -> le_name b c -> le_name a c.
Proof.
  unfold le_name. intros H1 H2. destruct (bytes_ltb (CName c) (CName a)) eqn:E; [|reflexivity]. exfalso.
  destruct (bytes_ltb (CName b) (CName c)) eqn:E2; [rewrite (bytes_ltb_trans _ _ _ E2 E) in H1; discriminate|].
  pose proof (bytes_ltb_total _ _ H2 E2) as Q. rewrite Q in E. rewrite E in H1. discriminate.
Qed.
(** In proofs; for bip44/coins.go:1151-1164. *)
Fixpoint ins (c : Coin) (l : list Coin) : list Coin :=
  match l with [] => [c] | d :: r => if bytes_ltb (CName d) (CName c) then d :: ins c r else c :: l end.
(** In proofs; for bip44/coins.go:1151-1164. *)
Definition isort (l : list Coin) : list Coin := fold_right ins [] l.
Lemma ins_perm c l : Permutation (ins c l) (c :: l).
Proof.
  induction l as [|d l IH]; [reflexivity|]. cbn. destruct (bytes_ltb _ _); [|reflexivity].
  rewrite IH. apply perm_swap.
Qed.
Lemma isort_perm l : Permutation (isort l) l.
Proof. induction l as [|c l IH]; [constructor|]. cbn. rewrite ins_perm. constructor. exact IH. Qed.
Lemma ins_sorted c l : StronglySorted le_name l -> StronglySorted le_name (ins c l).
Proof.
  induction 1 as [|d l Hl IH Hd]; [repeat constructor|]. cbn. destruct (bytes_ltb (CName d) (CName c)) eqn:E.
  - constructor; [exact IH|]. eapply Permutation_Forall; [symmetry; apply ins_perm|]. constructor; [|exact Hd].
    unfold le_name. destruct (bytes_ltb (CName c) (CName d)) eqn:E2; [|reflexivity].
    rewrite <- (bytes_ltb_irrefl (CName c)). symmetry. apply (bytes_ltb_trans _ _ _ E2 E).
  - constructor; [constructor; assumption|]. constructor; [exact E|]. eapply Forall_impl; [|exact Hd].
    intros x Hx. apply (le_name_trans c d x); [exact E|exact Hx].
Qed.
Lemma isort_sorted l : StronglySorted le_name (isort l).
Proof. induction l as [|c l IH]; [constructor|]. cbn. apply ins_sorted, IH. Qed.
Lemma isort_result l : sort_result l (isort l).
Proof. split; [apply isort_perm|apply isort_sorted]. Qed.
Lemma SS_app (l m : list Coin) : StronglySorted le_name l -> StronglySorted le_name m ->
  (forall a b, In a l -> In b m -> le_name a b) -> StronglySorted le_name (l ++ m).
Proof.
  intros Hl Hm H. induction Hl as [|a l Hl IH Ha]; [exact Hm|]. cbn. constructor.
  - apply IH. intros x y Hx Hy. apply H; [right; exact Hx|exact Hy].
  - apply Forall_app. split; [exact Ha|]. apply Forall_forall. intros y Hy. apply H; [left; reflexivity|exact Hy].
Qed.
Lemma filter_perm {A} (f : A -> bool) l : Permutation (filter f l ++ filter (fun x => negb (f x)) l) l.
Proof.
  induction l as [|a l IH]; [constructor|]. cbn. destruct (f a); cbn; [constructor; exact IH|].
  rewrite <- Permutation_middle. constructor. exact IH.
Qed.
(** Any coin may be the last of those with its name. *)
Lemma any_last c l : In c l -> exists p q, sort_result l (p ++ c :: q) /\ Forall (fun d => bytes_ltb (CName c) (CName d) = true) q.
Proof.
  intros H. apply in_split in H as (l1 & l2 & ->). set (rest := l1 ++ l2).
  set (f := fun d => bytes_ltb (CName c) (CName d)).
  exists (isort (filter (fun d => negb (f d)) rest)), (isort (filter f rest)).
  assert (Q : Forall (fun d => bytes_ltb (CName c) (CName d) = true) (isort (filter f rest))).
  { eapply Permutation_Forall; [symmetry; apply isort_perm|]. apply Forall_forall. intros d Hd. apply filter_In in Hd. exact (proj2 Hd). }
  assert (P : Forall (fun d => bytes_ltb (CName c) (CName d) = false) (isort (filter (fun d => negb (f d)) rest))).
  { eapply Permutation_Forall; [symmetry; apply isort_perm|]. apply Forall_forall. intros d Hd. apply filter_In in Hd as [_ Hd]. apply negb_true_iff. exact Hd. }
  assert (LT : forall d, bytes_ltb (CName c) (CName d) = true -> le_name c d).
  { intros d Hd. unfold le_name. destruct (bytes_ltb (CName d) (CName c)) eqn:E; [|reflexivity].
    rewrite <- (bytes_ltb_irrefl (CName c)). symmetry. apply (bytes_ltb_trans _ _ _ Hd E). }
  rewrite Forall_forall in P, Q.
  split; [|apply Forall_forall; exact Q]. split.
  - rewrite <- !Permutation_middle. constructor. rewrite !isort_perm, Permutation_app_comm. apply filter_perm.
  - apply SS_app; [apply isort_sorted| |].
    + constructor; [apply isort_sorted|]. apply Forall_forall. intros d Hd. apply LT, Q, Hd.
    + intros a b Ha [<-|Hb]; [exact (P a Ha)|]. apply (le_name_trans a c b); [exact (P a Ha)|apply LT, Q, Hb].
Qed.

(** ** The loop of init *)
Lemma init_coins_fields l R : fold_left init_step l R =
  mkReg (RegCoins R ++ map fix_coin l)
        (rev (map (fun c => (CType c, c)) (map fix_coin l)) ++ RegBip44CoinsTypeToValMap R)
        (rev (map (fun c => (PathComponent c, c)) (map fix_coin l)) ++ RegBip44CoinsPathCompToValMap R)
        (rev (map (fun c => (CName c, c)) (map fix_coin l)) ++ RegBip44CoinsNameToValMap R).
Proof.
  revert R. induction l as [|c l IH]; intros R; [cbn; rewrite app_nil_r; destruct R; reflexivity|].
  cbn [fold_left map rev]. rewrite IH. unfold init_step. cbn [RegCoins RegBip44CoinsTypeToValMap RegBip44CoinsPathCompToValMap RegBip44CoinsNameToValMap].
  rewrite <- !app_assoc. reflexivity.
Qed.
Lemma init_coins_eq l : init_coins l =
  mkReg (map fix_coin l) (rev (map (fun c => (CType c, c)) (map fix_coin l)))
        (rev (map (fun c => (PathComponent c, c)) (map fix_coin l))) (rev (map (fun c => (CName c, c)) (map fix_coin l))).
Proof. unfold init_coins. rewrite init_coins_fields. cbn [RegCoins RegBip44CoinsTypeToValMap RegBip44CoinsPathCompToValMap RegBip44CoinsNameToValMap app]. rewrite !app_nil_r. reflexivity. Qed.
Lemma fix_name c : CName (fix_coin c) = CName c.
Proof. unfold fix_coin. destruct (negb _); reflexivity. Qed.
Lemma fix_sym c : Symbol (fix_coin c) = Symbol c.
Proof. unfold fix_coin. destruct (negb _); reflexivity. Qed.
Lemma fix_pc c : PathComponent (fix_coin c) = PathComponent c.
Proof. unfold fix_coin. destruct (negb _); reflexivity. Qed.

Lemma zget_In {V} k (m : zmap V) v : zget k m = Some v -> In (k, v) m.
Proof. induction m as [|[k' v'] m IH]; cbn; [discriminate|]. destruct (k =? k') eqn:E; intros H; [injection H as ->; left; f_equal; lia|right; auto]. Qed.
Lemma zget_NoDup {V} k (m : zmap V) v : NoDup (map fst m) -> In (k, v) m -> zget k m = Some v.
Proof.
  induction m as [|[k' v'] m IH]; cbn; intros N H; [destruct H|]. inversion N as [|? ? N1 N2]; subst.
  destruct H as [H|H]; [injection H as -> ->; rewrite Z.eqb_refl; reflexivity|].
  destruct (k =? k') eqn:E; [|auto]. exfalso. apply N1. replace k' with k by lia. apply in_map_iff. exists (k, v). auto.
Qed.
Lemma zget_keyed (f : Coin -> Z) (l : list Coin) k c : NoDup (map f l) ->
  zget k (rev (map (fun c => (f c, c)) l)) = Some c <-> In c l /\ f c = k.
Proof.
  intros N. split.
  - intros H. apply zget_In in H. rewrite <- in_rev in H. apply in_map_iff in H as (d & E & H). injection E as <- <-. auto.
  - intros [H <-]. apply zget_NoDup.
    + rewrite map_rev, map_map. cbn. apply NoDup_rev. exact N.
    + rewrite <- in_rev. apply in_map_iff. exists c. auto.
Qed.
Lemma bytes_eqb_true a b : bytes_eqb a b = true -> a = b.
Proof. apply bytes_eqb_spec. Qed.
Lemma sget_In {V} k (m : smap V) v : sget k m = Some v -> In (k, v) m.
Proof. induction m as [|[k' v'] m IH]; cbn; [discriminate|]. destruct (bytes_eqb k k') eqn:E; intros H; [injection H as ->; left; apply bytes_eqb_true in E; subst; reflexivity|right; auto]. Qed.
Lemma sget_Some {V} k (m : smap V) v : In (k, v) m -> exists v', sget k m = Some v'.
Proof. induction m as [|[k' v'] m IH]; cbn; [intros []|]. intros [H|H]; [injection H as -> ->; rewrite bytes_eqb_refl; eauto|]. destruct (bytes_eqb k k'); eauto. Qed.
Lemma sget_last (q : smap Coin) k c p : Forall (fun e => fst e <> k) q -> sget k (q ++ (k, c) :: p) = Some c.
Proof.
  induction 1 as [|[k' v'] q H _ IH]; cbn; [rewrite bytes_eqb_refl; reflexivity|]. cbn in H.
  destruct (bytes_eqb k k') eqn:E; [|exact IH]. apply bytes_eqb_true in E. subst. now elim H.
Qed.
