(** GoStrFacts.v - facts about the Go string helpers. *)
From Verif Require Import Base BaseFacts GoStr.
From Coq Require Import ZifyBool ZifyNat ZifyN.
Ltac Zify.zify_post_hook ::= Z.div_mod_to_equations.

(** ** Runes *)
(** In proofs; for bip39/bip39.go:340, bip32/path.go:58. *)
Definition noncont (b : byte) : Prop := Zb b < 128 \/ 191 < Zb b.

Lemma decode_rune_width s : s <> [] -> (1 <= snd (decode_rune s) <= length s)%nat.
Proof.
  destruct s as [|a [|b [|c [|d r]]]]; intros H; [now elim H|..]; unfold decode_rune;
    repeat match goal with |- context [if ?x then _ else _] => destruct x end; simpl; lia.
Qed.

Lemma in_rng_noncont b lo hi : noncont b -> 128 <= lo -> hi <= 191 -> in_rng lo hi b = false.
Proof. unfold noncont, in_rng. lia. Qed.
Lemma cont_noncont b : noncont b -> cont b = false.
Proof. intros H. apply in_rng_noncont; [exact H|lia|lia]. Qed.

Lemma decode_rune_app s b r : s <> [] -> noncont b -> decode_rune (s ++ b :: r) = decode_rune s.
Proof.
  intros Hs Hb.
  pose proof (cont_noncont b Hb) as Hc.
  assert (Hi : forall x lo hi hi', 128 <= lo -> hi <= 191 -> hi' <= 191 ->
     in_rng lo (if Zb x =? 237 then hi else hi') b = false /\
     in_rng lo (if Zb x =? 244 then hi else hi') b = false).
  { intros x lo hi hi' H1 H2 H3. split; apply in_rng_noncont; try assumption.
    - destruct (Zb x =? 237); assumption.
    - destruct (Zb x =? 244); assumption. }
  destruct s as [|a [|a1 [|a2 [|a3 t]]]]; [now elim Hs|..]; cbn [app]; unfold decode_rune.
  - rewrite Hc.
    assert (E3 : in_rng (if Zb a =? 224 then 160 else 128) (if Zb a =? 237 then 159 else 191) b = false)
      by (apply in_rng_noncont; [exact Hb|destruct (Zb a =? 224); lia|destruct (Zb a =? 237); lia]).
    assert (E4 : in_rng (if Zb a =? 240 then 144 else 128) (if Zb a =? 244 then 143 else 191) b = false)
      by (apply in_rng_noncont; [exact Hb|destruct (Zb a =? 240); lia|destruct (Zb a =? 244); lia]).
    cbv zeta. rewrite E3, E4. cbn [andb].
    destruct (Zb a <? 128); [reflexivity|]. destruct (in_rng 194 223 a); [reflexivity|].
    destruct (in_rng 224 239 a); [destruct r; reflexivity|].
    destruct (in_rng 240 244 a); [destruct r as [|? [|? ?]]; reflexivity|reflexivity].
  - cbv zeta. rewrite Hc, ?andb_false_r, ?andb_false_l. cbn [andb].
    destruct (Zb a <? 128); [reflexivity|]. destruct (in_rng 194 223 a); [reflexivity|].
    destruct (in_rng 224 239 a); [reflexivity|].
    destruct (in_rng 240 244 a); [|reflexivity]. destruct r; reflexivity.
  - cbv zeta. rewrite Hc, ?andb_false_r. reflexivity.
  - reflexivity.
Qed.

Lemma runes_fuel f g s : (length s <= f)%nat -> (length s <= g)%nat -> runes f s = runes g s.
Proof.
  revert g s; induction f as [|f IH]; intros g s Hf Hg.
  - destruct s; [|simpl in Hf; lia]. destruct g; reflexivity.
  - destruct s as [|a s]; [destruct g; reflexivity|].
    destruct g as [|g]; [simpl in Hg; lia|]. cbn [runes].
    pose proof (decode_rune_width (a :: s) ltac:(discriminate)) as W.
    destruct (decode_rune (a :: s)) as [c w]. cbn [snd] in W. f_equal.
    assert (length (skipn w (a :: s)) <= length s)%nat by (rewrite skipn_length; simpl length; lia).
    simpl in Hf, Hg. apply IH; lia.
Qed.
Lemma runes_of_cons s : s <> [] -> runes_of s =
  (firstn (snd (decode_rune s)) s, is_space (fst (decode_rune s))) :: runes_of (skipn (snd (decode_rune s)) s).
Proof.
  intros Hs. unfold runes_of at 1. destruct s as [|a s]; [now elim Hs|]. cbn [length runes].
  pose proof (decode_rune_width (a :: s) ltac:(discriminate)) as W.
  destruct (decode_rune (a :: s)) as [c w]. cbn [fst snd] in *. f_equal.
  unfold runes_of. apply runes_fuel; [rewrite skipn_length; simpl length; lia|lia].
Qed.
Lemma runes_of_nil : runes_of [] = []. Proof. reflexivity. Qed.

Lemma len_ind (P : bytes -> Prop) :
  (forall s, (forall t, (length t < length s)%nat -> P t) -> P s) -> forall s, P s.
Proof.
  intros H s. assert (G : forall n t, (length t < n)%nat -> P t).
  { induction n as [|n IH]; intros t Ht; [lia|]. apply H. intros u Hu. apply IH. lia. }
  apply (G (S (length s))). lia.
Qed.

Lemma runes_of_app s b r : noncont b -> runes_of (s ++ b :: r) = runes_of s ++ runes_of (b :: r).
Proof.
  intros Hb. revert s. apply (len_ind (fun s => runes_of (s ++ b :: r) = runes_of s ++ runes_of (b :: r))).
  intros s IH. destruct s as [|a s]; [reflexivity|].
  set (s' := a :: s) in *. assert (Hs : s' <> []) by discriminate.
  rewrite (runes_of_cons (s' ++ b :: r)) by (unfold s'; discriminate).
  rewrite (runes_of_cons s') by exact Hs. rewrite decode_rune_app by assumption.
  pose proof (decode_rune_width s' Hs) as W. set (w := snd (decode_rune s')) in *.
  rewrite firstn_app, skipn_app. replace (w - length s')%nat with O by lia. cbn [firstn skipn].
  rewrite app_nil_r. cbn [app]. f_equal. apply IH. rewrite skipn_length. lia.
Qed.

Lemma runes_concat s : concat (map fst (runes_of s)) = s.
Proof.
  revert s. apply (len_ind (fun s => concat (map fst (runes_of s)) = s)). intros s IH.
  destruct s as [|a s]; [reflexivity|].
  rewrite runes_of_cons by discriminate. cbn [map concat fst]. rewrite IH.
  - apply firstn_skipn.
  - pose proof (decode_rune_width (a :: s) ltac:(discriminate)). rewrite skipn_length. lia.
Qed.
Lemma runes_nonempty s c f : In (c, f) (runes_of s) -> c <> [].
Proof.
  revert s. apply (len_ind (fun s => In (c, f) (runes_of s) -> c <> [])). intros s IH Hin.
  destruct s as [|a s]; [inversion Hin|].
  pose proof (decode_rune_width (a :: s) ltac:(discriminate)) as W.
  rewrite runes_of_cons in Hin by discriminate. destruct Hin as [E|Hin].
  - destruct (decode_rune (a :: s)) as [c0 w]. cbn [fst snd] in *. injection E as <- _.
    destruct w as [|w]; [lia|]. discriminate.
  - revert Hin. apply IH. rewrite skipn_length. lia.
Qed.

(** The first byte of a white-space rune is not a continuation byte. *)
Lemma space_noncont a s : is_space (fst (decode_rune (a :: s))) = true -> noncont a.
Proof.
  unfold noncont. unfold decode_rune. pose proof (Zb_range a).
  destruct (Zb a <? 128) eqn:E; [lia|].
  destruct (in_rng 194 223 a) eqn:E2; [unfold in_rng in E2; lia|].
  destruct (in_rng 224 239 a) eqn:E3; [unfold in_rng in E3; lia|].
  destruct (in_rng 240 244 a) eqn:E4; [unfold in_rng in E4; lia|].
  discriminate.
Qed.
Lemma space_rune_head s c : In (c, true) (runes_of s) -> exists a t, c = a :: t /\ noncont a.
Proof.
  revert s. apply (len_ind (fun s => In (c, true) (runes_of s) -> exists a t, c = a :: t /\ noncont a)).
  intros s IH Hin. destruct s as [|a s]; [inversion Hin|].
  pose proof (decode_rune_width (a :: s) ltac:(discriminate)) as W.
  rewrite runes_of_cons in Hin by discriminate. destruct Hin as [E|Hin].
  - pose proof (space_noncont a s) as SN. destruct (decode_rune (a :: s)) as [c0 w].
    cbn [fst snd] in *. injection E as <- Esp. apply SN in Esp.
    destruct w as [|w]; [lia|]. exists a, (firstn w s). auto.
  - revert Hin. apply IH. rewrite skipn_length. lia.
Qed.

(** ** Fields *)
(** In proofs; for bip39/bip39.go:340, bip32/path.go:58. *)
Definition nonspace (cs : list (bytes * bool)) : bool := forallb (fun c => negb (snd c)) cs.
(** A word: non-empty and without white-space runes. *)
(** In proofs; for bip39/bip39.go:340, bip32/path.go:58. *)
Definition word_ok (w : bytes) : bool :=
  match w with [] => false | _ => nonspace (runes_of w) end.

Lemma group_nonspace cs cur : nonspace cs = true -> group_fields cs cur = emit (cur ++ concat (map fst cs)).
Proof.
  revert cur; induction cs as [|[c f] cs IH]; intros cur H.
  - simpl. rewrite app_nil_r. reflexivity.
  - simpl in H. apply andb_true_iff in H as [Hf H]. destruct f; [discriminate|].
    cbn [group_fields map fst concat]. rewrite IH by exact H. rewrite app_assoc. reflexivity.
Qed.
Lemma group_app cs c r cur : nonspace cs = true ->
  group_fields (cs ++ (c, true) :: r) cur = emit (cur ++ concat (map fst cs)) ++ group_fields r [].
Proof.
  revert cur; induction cs as [|[d f] cs IH]; intros cur H.
  - simpl. rewrite app_nil_r. reflexivity.
  - simpl in H. apply andb_true_iff in H as [Hf H]. destruct f; [discriminate|].
    cbn [app group_fields map fst concat]. rewrite IH by exact H. rewrite app_assoc. reflexivity.
Qed.

Lemma x20_noncont : noncont x20. Proof. left. reflexivity. Qed.
Lemma runes_of_space r : runes_of (x20 :: r) = ([x20], true) :: runes_of r.
Proof. rewrite runes_of_cons by discriminate. reflexivity. Qed.

Lemma Fields_word w : word_ok w = true -> Fields w = [w].
Proof.
  intros H. unfold Fields. destruct w as [|a w]; [discriminate|].
  rewrite group_nonspace by exact H. rewrite runes_concat. reflexivity.
Qed.
Lemma Fields_cons w r : word_ok w = true -> Fields (w ++ x20 :: r) = w :: Fields r.
Proof.
  intros H. unfold Fields. rewrite runes_of_app by apply x20_noncont. rewrite runes_of_space.
  destruct w as [|a w]; [discriminate|]. rewrite group_app by exact H. rewrite runes_concat. reflexivity.
Qed.
Lemma Fields_Join ws : Forall (fun w => word_ok w = true) ws -> Fields (Join (B " ") ws) = ws.
Proof.
  intros H. induction H as [|w ws Hw H IH]; [reflexivity|].
  destruct ws as [|w' ws]; [apply Fields_word; exact Hw|].
  change (Join (B " ") (w :: w' :: ws)) with (w ++ x20 :: Join (B " ") (w' :: ws)).
  rewrite Fields_cons by exact Hw. rewrite IH. reflexivity.
Qed.

(** Every field is a word. *)
Lemma runes_suffix A B' s : runes_of s = A ++ B' -> runes_of (concat (map fst B')) = B'.
Proof.
  revert s; induction A as [|x A IH]; intros s E.
  - simpl in E. rewrite <- E at 1. rewrite runes_concat. exact E.
  - destruct s as [|a s]; [discriminate|]. rewrite runes_of_cons in E by discriminate.
    cbn [app] in E. apply (f_equal (@tl _)) in E. cbn [tl] in E. apply (IH _ E).
Qed.
Lemma prefix_unique (L1 L2 R1 R2 : list (bytes * bool)) :
  L1 ++ R1 = L2 ++ R2 -> (forall c f, In (c, f) (L1 ++ R1) -> c <> []) ->
  length (concat (map fst L1)) = length (concat (map fst L2)) -> L1 = L2.
Proof.
  revert L2; induction L1 as [|[c f] L1 IH]; intros L2 E Hne HL.
  - destruct L2 as [|[d g] L2]; [reflexivity|]. exfalso. simpl in E, HL.
    rewrite app_length in HL. apply (Hne d g); [rewrite E; left; reflexivity|].
    destruct d; [reflexivity|simpl in HL; lia].
  - destruct L2 as [|[d g] L2].
    + exfalso. simpl in HL. rewrite app_length in HL.
      apply (Hne c f); [left; reflexivity|]. destruct c; [reflexivity|simpl in HL; lia].
    + simpl in E. injection E as <- <- E. f_equal. apply IH; [exact E| |].
      * intros c' f' Hin. apply (Hne c' f'). right. exact Hin.
      * simpl in HL. rewrite !app_length in HL. lia.
Qed.
Lemma runes_prefix A c B' s : runes_of s = A ++ (c, true) :: B' -> runes_of (concat (map fst A)) = A.
Proof.
  intros E.
  destruct (space_rune_head s c) as (a & t & -> & Ha); [rewrite E; apply in_elt|].
  assert (Es : s = concat (map fst A) ++ a :: (t ++ concat (map fst B'))).
  { rewrite <- (runes_concat s), E, map_app, concat_app. reflexivity. }
  pose proof (runes_of_app (concat (map fst A)) a (t ++ concat (map fst B')) Ha) as R.
  rewrite <- Es, E in R.
  symmetry. eapply prefix_unique; [exact R| |].
  - intros d f Hin. apply (runes_nonempty s d f). rewrite E. exact Hin.
  - rewrite runes_concat. reflexivity.
Qed.
Lemma split_space cs : nonspace cs = true \/ exists A c B', cs = A ++ (c, true) :: B' /\ nonspace A = true.
Proof.
  induction cs as [|[c f] cs IH]; [left; reflexivity|].
  destruct f.
  - right. exists [], c, cs. auto.
  - destruct IH as [H|(A & d & B' & -> & H)].
    + left. simpl. exact H.
    + right. exists ((c, false) :: A), d, B'. split; [reflexivity|exact H].
Qed.
Lemma emit_ok A s : runes_of s = A -> nonspace A = true -> Forall (fun w => word_ok w = true) (emit s).
Proof.
  intros E H. destruct s as [|a s]; [constructor|]. constructor; [|constructor].
  unfold word_ok. rewrite E. exact H.
Qed.
Theorem Fields_ok m : Forall (fun w => word_ok w = true) (Fields m).
Proof.
  revert m. apply (len_ind (fun m => Forall (fun w => word_ok w = true) (Fields m))). intros m IH.
  unfold Fields. destruct (split_space (runes_of m)) as [H|(A & c & B' & E & H)].
  - rewrite group_nonspace by exact H. cbn [app]. rewrite runes_concat.
    eapply emit_ok; [reflexivity|exact H].
  - rewrite E, group_app by exact H. cbn [app]. apply Forall_app. split.
    + eapply emit_ok; [|exact H]. eapply runes_prefix; exact E.
    + pose proof (runes_suffix (A ++ [(c, true)]) B' m ltac:(rewrite <- app_assoc; exact E)) as R.
      rewrite <- R. apply IH.
      assert (Hc : c <> []) by (apply (runes_nonempty m c true); rewrite E; apply in_elt).
      assert (Lm : length m = length (concat (map fst (runes_of m)))) by (rewrite runes_concat; reflexivity).
      rewrite Lm, E, map_app, concat_app. cbn [map fst concat].
      rewrite !app_length. destruct c; [now elim Hc|]. simpl. lia.
Qed.
Theorem Fields_normal m : Fields (Join (B " ") (Fields m)) = Fields m.
Proof. apply Fields_Join, Fields_ok. Qed.

(** ** Split and Join *)
Lemma Split_nonempty sep s : Split sep s <> [].
Proof.
  destruct s as [|c s]; [discriminate|]. cbn [Split]. destruct (Byte.eqb c sep); [discriminate|].
  destruct (Split sep s); discriminate.
Qed.
Lemma Split_nosep sep w : ContainsB sep w = false -> Split sep w = [w].
Proof.
  unfold ContainsB. induction w as [|c w IH]; [reflexivity|]. cbn [existsb Split].
  intros H. apply orb_false_iff in H as [H1 H2].
  assert (E : Byte.eqb c sep = false).
  { apply byte_eqb_neq. intros ->. rewrite byte_eqb_refl in H1. discriminate. }
  rewrite E, IH by exact H2. reflexivity.
Qed.
Lemma Split_app sep w s : ContainsB sep w = false -> Split sep (w ++ sep :: s) = w :: Split sep s.
Proof.
  unfold ContainsB. induction w as [|c w IH].
  - intros _. cbn [app Split]. rewrite byte_eqb_refl. reflexivity.
  - cbn [existsb]. intros H. apply orb_false_iff in H as [H1 H2].
    assert (E : Byte.eqb c sep = false).
    { apply byte_eqb_neq. intros ->. rewrite byte_eqb_refl in H1. discriminate. }
    cbn [app Split]. rewrite E, IH by exact H2. reflexivity.
Qed.
Lemma Split_Join sep ws : ws <> [] -> Forall (fun w => ContainsB sep w = false) ws ->
  Split sep (Join [sep] ws) = ws.
Proof.
  intros Hne H. induction H as [|w ws Hw H IH]; [now elim Hne|].
  destruct ws as [|w' ws]; [apply Split_nosep; exact Hw|].
  change (Join [sep] (w :: w' :: ws)) with (w ++ sep :: Join [sep] (w' :: ws)).
  rewrite Split_app by exact Hw. rewrite IH by discriminate. reflexivity.
Qed.
Lemma Join_Split sep s : Join [sep] (Split sep s) = s.
Proof.
  induction s as [|c s IH]; [reflexivity|]. cbn [Split].
  pose proof (Split_nonempty sep s) as Hn.
  destruct (Byte.eqb c sep) eqn:E.
  - apply byte_eqb_spec in E as ->. destruct (Split sep s) as [|w ws]; [now elim Hn|].
    change (Join [sep] ([] :: w :: ws)) with (sep :: Join [sep] (w :: ws)). rewrite IH. reflexivity.
  - destruct (Split sep s) as [|w ws]; [now elim Hn|].
    assert (G : Join [sep] ((c :: w) :: ws) = c :: Join [sep] (w :: ws)) by (destruct ws; reflexivity).
    rewrite G, IH. reflexivity.
Qed.
Lemma Split_no_sep sep s : Forall (fun w => ContainsB sep w = false) (Split sep s).
Proof.
  induction s as [|c s IH]; [repeat constructor|]. cbn [Split].
  destruct (Byte.eqb c sep) eqn:E; [constructor; [reflexivity|exact IH]|].
  pose proof (Split_nonempty sep s) as Hn.
  destruct (Split sep s) as [|w ws]; [now elim Hn|]. inversion IH as [|? ? Hw Hws]; subst.
  constructor; [|exact Hws]. unfold ContainsB in *. cbn [existsb]. rewrite Hw, orb_false_r.
  apply byte_eqb_neq. intros ->. rewrite byte_eqb_refl in E. discriminate.
Qed.
