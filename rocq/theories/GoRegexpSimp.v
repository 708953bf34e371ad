(** GoRegexpSimp.v - proof that Simplify of GoRegexp.v keeps the meaning of a pattern and that minInputLen is a lower bound (for C97). *)
From Verif Require Import Base BaseFacts GoStr GoStrLit Bip32 GoCodec GoRegexp SpecRegexp GoRegexpIn GoRegexpRun GoRegexpCode GoRegexpComp.

Section Meaning.
Variable s : bytes.
Notation Den := (Den s).

(** In proofs; for bip32/path.go:22, 25, bip32/reg_ver_bytes.go:75. *)
Inductive iter (R : nat -> nat -> Prop) : nat -> nat -> nat -> Prop :=
| it_0 i : iter R 0 i i
| it_S n i j k : R i j -> iter R n j k -> iter R (S n) i k.
Lemma iter_ext (R R' : nat -> nat -> Prop) n i j : (forall x y, R x y -> R' x y) -> iter R n i j -> iter R' n i j.
Proof. intros E. induction 1; econstructor; eauto. Qed.
Lemma iter_app R n m i j k : iter R n i j -> iter R m j k -> iter R (n + m) i k.
Proof. induction 1; intros; cbn; [assumption|]. econstructor; eauto. Qed.
Lemma iter_split R n : forall m i k, iter R (n + m) i k -> exists j, iter R n i j /\ iter R m j k.
Proof.
  induction n as [|n IH]; intros m i k H; [exists i; split; [constructor|exact H]|].
  cbn in H. inversion H as [|? ? j ? HR HI]; subst. destruct (IH m j k HI) as (x & A & B). exists x. split; [econstructor; eassumption|exact B].
Qed.
Lemma iter_1 R i j : iter R 1 i j <-> R i j.
Proof.
  split.
  - intros H. inversion H as [|? ? x ? HR HI]; subst. inversion HI; subst. exact HR.
  - intros H. econstructor; [exact H|constructor].
Qed.
Lemma iter_0 R i j : iter R 0 i j <-> i = j.
Proof. split; [intros H; inversion H; reflexivity|intros ->; constructor]. Qed.

Lemma den_star a i j : Den (OpStar a) i j <-> exists n, iter (Den a) n i j.
Proof.
  split.
  - intros H. remember (OpStar a) as re eqn:E. induction H; try discriminate.
    + exists O. constructor.
    + injection E as <-. destruct IHDen2 as (n & Hn); [reflexivity|]. exists (S n). econstructor; eassumption.
  - intros (n & H). induction H; [apply D_star0|eapply D_starS; eassumption].
Qed.
Lemma den_plus a i j : Den (OpPlus a) i j <-> exists n, (1 <= n)%nat /\ iter (Den a) n i j.
Proof.
  split.
  - intros H. inversion H; subst. match goal with X : Den (OpStar _) _ _ |- _ => apply den_star in X; destruct X as (n & X) end. exists (S n). split; [lia|]. econstructor; eassumption.
  - intros (n & L & H). inversion H; subst; [lia|]. eapply D_plus; [eassumption|]. apply den_star. eauto.
Qed.
Lemma den_quest a i j : Den (OpQuest a) i j <-> i = j \/ Den a i j.
Proof. split; [intros H; inversion H; subst; auto|intros [-> | H]; [apply D_quest0|apply D_quest1, H]]. Qed.
Lemma den_empty i j : Den OpEmptyMatch i j <-> i = j.
Proof. split; [intros H; inversion H; reflexivity|intros ->; constructor]. Qed.
Lemma den_cat a b i j : Den (OpConcat a b) i j <-> exists k, Den a i k /\ Den b k j.
Proof. split; [intros H; inversion H; subst; eauto|intros (k & A & B); econstructor; eassumption]. Qed.
Lemma den_cap n a i j : Den (OpCapture n a) i j <-> Den a i j.
Proof. split; [intros H; inversion H; assumption|apply D_cap]. Qed.
Lemma den_rep mn mx a i j : Den (OpRepeat mn mx a) i j <-> exists n, (mn <= n <= mx)%nat /\ iter (Den a) n i j.
Proof.
  split.
  - intros H. remember (OpRepeat mn mx a) as re eqn:E. revert mn mx E. induction H; intros mn mx E; try discriminate.
    + injection E as <- <- <-. exists O. split; [lia|constructor].
    + injection E as <- <- <-. destruct (IHDen2 (min - 1)%nat max eq_refl) as (n & Ln & Hn). exists (S n). split; [lia|]. econstructor; eassumption.
  - intros (n & L & H). revert mn mx L. induction H as [i|n i j k R I IH]; intros mn mx L.
    + replace mn with O by lia. apply D_rep0.
    + destruct mx as [|mx]; [lia|]. eapply D_repS; [exact R|]. apply IH. lia.
Qed.

(** ** simplify1 *)
Lemma quest_den a i j : Den (simplify1_quest a) i j <-> Den (OpQuest a) i j.
Proof.
  destruct a; cbn [simplify1_quest]; try tauto; rewrite !den_quest; [rewrite !den_empty|]; tauto.
Qed.
Lemma star_star a i j : Den (OpStar (OpStar a)) i j <-> Den (OpStar a) i j.
Proof.
  rewrite den_star. split.
  - intros (n & H). induction H as [i|n i j k R I IH]; [apply D_star0|]. apply den_star in R, IH. destruct R as (x & R), IH as (y & IH).
    apply den_star. exists (x + y)%nat. eapply iter_app; eassumption.
  - intros H. exists 1%nat. apply iter_1. exact H.
Qed.
Lemma plus_plus a i j : Den (OpPlus (OpPlus a)) i j <-> Den (OpPlus a) i j.
Proof.
  rewrite den_plus. split.
  - intros (n & L & H). assert (X : (n = 0)%nat /\ i = j \/ Den (OpPlus a) i j); [|destruct X as [[X _]|X]; [lia|exact X]]. clear L.
    induction H as [i|n i j k R I IH]; [left; auto|right]. destruct IH as [[_ <-]|IH]; [exact R|].
    apply den_plus in R, IH. destruct R as (x & Lx & R), IH as (y & Ly & IH). apply den_plus. exists (x + y)%nat. split; [lia|]. eapply iter_app; eassumption.
  - intros H. exists 1%nat. split; [lia|]. apply iter_1. exact H.
Qed.
Lemma star_den a i j : Den (simplify1_star a) i j <-> Den (OpStar a) i j.
Proof.
  destruct a; cbn [simplify1_star]; try tauto; [|rewrite star_star; tauto].
  rewrite den_star, den_empty. split; [intros ->; exists O; constructor|]. intros (n & H). induction H as [|n i j k R I IH]; [reflexivity|]. apply den_empty in R. congruence.
Qed.
Lemma plus_den a i j : Den (simplify1_plus a) i j <-> Den (OpPlus a) i j.
Proof.
  destruct a; cbn [simplify1_plus]; try tauto; [|rewrite plus_plus; tauto].
  rewrite den_plus, den_empty. split; [intros ->; exists 1%nat; split; [lia|]; apply iter_1; constructor|].
  intros (n & _ & H). induction H as [|n i j k R I IH]; [reflexivity|]. apply den_empty in R. congruence.
Qed.
Lemma suffix_den a k : forall i j, Den (suffix k a) i j <-> exists n, (n <= S k)%nat /\ iter (Den a) n i j.
Proof.
  induction k as [|k IH]; intros i j; cbn [suffix]; rewrite quest_den, den_quest.
  - split.
    + intros [-> | H]; [exists O; split; [lia|constructor]|exists 1%nat; split; [lia|apply iter_1, H]].
    + intros (n & L & H). destruct n as [|[|n]]; [apply (proj1 (iter_0 _ _ _)) in H; auto|apply (proj1 (iter_1 _ _ _)) in H; auto|lia].
  - rewrite den_cat. split.
    + intros [-> | (x & A & B)]; [exists O; split; [lia|constructor]|]. apply IH in B. destruct B as (n & L & B). exists (S n). split; [lia|]. econstructor; eassumption.
    + intros (n & L & H). inversion H as [|n' ? x ? R I]; subst; [auto|]. right. exists x. split; [exact R|]. apply IH. exists n'. split; [lia|exact I].
Qed.
Lemma copies_den a n : forall i j, Den (copies n a) i j <-> iter (Den a) (S n) i j.
Proof.
  induction n as [|n IH]; intros i j; cbn [copies]; [rewrite iter_1; tauto|]. rewrite den_cat. split.
  - intros (k & A & B). apply IH in A. replace (S (S n)) with (S n + 1)%nat by lia. eapply iter_app; [exact A|apply iter_1, B].
  - intros H. replace (S (S n)) with (S n + 1)%nat in H by lia. apply iter_split in H. destruct H as (k & A & B). exists k. split; [apply IH, A|apply (proj1 (iter_1 _ _ _)), B].
Qed.

Theorem Simplify_den re : re_ok re -> forall i j, Den (Simplify re) i j <-> Den re i j.
Proof.
  induction re as [|f rs|rs| | |k a IH|a IH|a IH|a IH|mn mx a IH|a IHa b IHb]; intros Ok i j; cbn [Simplify]; try tauto; cbn [re_ok] in Ok.
  - rewrite !den_cap. apply IH, Ok.
  - rewrite star_den, !den_star. split; intros (n & H); exists n; revert H; apply iter_ext; intros x y; apply IH, Ok.
  - rewrite plus_den, !den_plus. split; intros (n & L & H); exists n; (split; [exact L|]); revert H; apply iter_ext; intros x y; apply IH, Ok.
  - rewrite quest_den, !den_quest, IH by exact Ok. tauto.
  - destruct Ok as [Lm Ok]. specialize (IH Ok). rewrite den_rep.
    assert (I : forall n x y, iter (Den (Simplify a)) n x y <-> iter (Den a) n x y) by (intros n x y; split; apply iter_ext; intros u v; apply IH).
    destruct (mx =? 0)%nat eqn:E0.
    { apply Nat.eqb_eq in E0. subst mx. rewrite den_empty. split; [intros ->; exists O; split; [lia|constructor]|]. intros (n & L & H). replace n with O in H by lia. apply (proj1 (iter_0 _ _ _)) in H. exact H. }
    apply Nat.eqb_neq in E0. destruct ((mn =? 1)%nat && (mx =? 1)%nat) eqn:E1.
    { apply Bool.andb_true_iff in E1. destruct E1 as [E1 E2]. apply Nat.eqb_eq in E1, E2. subst. rewrite IH. split.
      - intros H. exists 1%nat. split; [lia|apply iter_1, H].
      - intros (n & L & H). replace n with 1%nat in H by lia. apply (proj1 (iter_1 _ _ _)) in H. exact H. }
    destruct mn as [|n].
    + rewrite suffix_den. split; intros (m & L & H); exists m; (split; [lia|]); apply I; exact H.
    + destruct (S n <? mx)%nat eqn:E2.
      * apply Nat.ltb_lt in E2. rewrite den_cat. split.
        -- intros (x & A & B). apply copies_den in A. apply suffix_den in B. destruct B as (m & L & B). exists (S n + m)%nat. split; [lia|]. eapply iter_app; apply I; eassumption.
        -- intros (m & L & H). replace m with (S n + (m - S n))%nat in H by lia. apply iter_split in H. destruct H as (x & A & B). exists x. rewrite copies_den, suffix_den.
           split; [apply I, A|]. exists (m - S n)%nat. split; [lia|apply I, B].
      * apply Nat.ltb_ge in E2. rewrite copies_den. split.
        -- intros H. exists (S n). split; [lia|apply I, H].
        -- intros (m & L & H). replace m with (S n) in H by lia. apply I, H.
  - rewrite !den_cat. destruct Ok as [Oa Ob]. split; intros (k & A & B); exists k; (split; [apply IHa; assumption|apply IHb; assumption]).
Qed.
End Meaning.

Lemma quest_ok a : (re_ok (simplify1_quest a) <-> re_ok a) /\ (no_repeat (simplify1_quest a) <-> no_repeat a).
Proof. destruct a; cbn; tauto. Qed.
Lemma star_ok a : (re_ok (simplify1_star a) <-> re_ok a) /\ (no_repeat (simplify1_star a) <-> no_repeat a).
Proof. destruct a; cbn; tauto. Qed.
Lemma plus_ok a : (re_ok (simplify1_plus a) <-> re_ok a) /\ (no_repeat (simplify1_plus a) <-> no_repeat a).
Proof. destruct a; cbn; tauto. Qed.
Lemma suffix_ok a k : re_ok a -> no_repeat a -> re_ok (suffix k a) /\ no_repeat (suffix k a).
Proof. intros A B. induction k as [|k IH]; cbn [suffix]; rewrite (proj1 (quest_ok _)), (proj2 (quest_ok _)); cbn; tauto. Qed.
Lemma copies_ok a k : re_ok a -> no_repeat a -> re_ok (copies k a) /\ no_repeat (copies k a).
Proof. intros A B. induction k as [|k IH]; cbn; tauto. Qed.
Lemma Simplify_ok re : re_ok re -> re_ok (Simplify re) /\ no_repeat (Simplify re).
Proof.
  induction re as [|f rs|rs| | |k a IH|a IH|a IH|a IH|mn mx a IH|a IHa b IHb]; intros Ok; cbn [Simplify]; cbn [re_ok] in Ok; try (cbn; tauto).
  - rewrite (proj1 (star_ok _)), (proj2 (star_ok _)). apply IH, Ok.
  - rewrite (proj1 (plus_ok _)), (proj2 (plus_ok _)). apply IH, Ok.
  - rewrite (proj1 (quest_ok _)), (proj2 (quest_ok _)). apply IH, Ok.
  - destruct Ok as [_ Ok]. destruct (IH Ok) as [A B]. destruct (mx =? 0)%nat; [cbn; tauto|]. destruct ((mn =? 1)%nat && (mx =? 1)%nat); [tauto|].
    destruct mn as [|n]; [apply suffix_ok; assumption|]. destruct (S n <? mx)%nat; [|apply copies_ok; assumption].
    destruct (copies_ok _ n A B), (suffix_ok _ (mx - S n - 1) A B). cbn [re_ok no_repeat]. tauto.
Qed.

(** ** Positions and lengths *)
Lemma iter_ge (R : nat -> nat -> Prop) m n i j : (forall x y, R x y -> (x + m <= y)%nat) -> iter R n i j -> (i + n * m <= j)%nat.
Proof. intros H. induction 1 as [|n i j k Rij I IH]; [lia|]. apply H in Rij. cbn [Nat.mul]. lia. Qed.
Lemma lit_len f : forall rs, Forall (fun r => 0 <= r < 128 /\ (f = true -> ~ In r [75; 83; 107; 115])) rs -> forall a, fold_left (fun l r => l + RuneLen r)%nat rs a = (a + length rs)%nat.
Proof.
  induction rs as [|r rs IH]; intros A a; cbn [fold_left length]; [lia|]. inversion A as [|? ? [Hr _] A']; subst. rewrite (IH A').
  unfold RuneLen. replace (r <? 128) with true by (symmetry; apply Z.ltb_lt; lia). lia.
Qed.
Lemma lit_grows s f rs i j : Den s (OpLiteral f rs) i j -> (i + length rs <= j)%nat.
Proof.
  intros H. remember (OpLiteral f rs) as re eqn:E. revert rs E. induction H; intros rs0 E; try discriminate.
  - injection E as <- <-. cbn. lia.
  - injection E as <- <-. specialize (IHDen rs eq_refl). destruct (rune_at_facts _ _ _ _ H) as ((X & _) & _). cbn. lia.
Qed.
Theorem minInputLen_ok s re i j : re_ok re -> Den s re i j -> (i + minInputLen re <= j)%nat.
Proof.
  revert i j. induction re as [|f rs|rs| | |k a IH|a IH|a IH|a IH|mn mx a IH|a IHa b IHb]; intros i j Ok D; cbn [minInputLen].
  - apply den_empty in D. lia.
  - rewrite (lit_len f rs Ok). apply (lit_grows s f). exact D.
  - inversion D; subst. match goal with H : rune_at _ _ _ _ |- _ => destruct (rune_at_facts _ _ _ _ H) as ((X & _) & _) end. lia.
  - inversion D; subst. lia.
  - inversion D; subst. lia.
  - apply den_cap in D. apply IH; assumption.
  - apply den_star in D. destruct D as (n & D). apply (iter_ge _ 0) in D; [lia|]. intros x y H. apply IH in H; [lia|exact Ok].
  - apply den_plus in D. destruct D as (n & L & D). apply (iter_ge _ (minInputLen a)) in D; [|intros x y H; apply IH; assumption]. nia.
  - apply den_quest in D. destruct D as [-> | D]; [lia|]. apply IH in D; [lia|exact Ok].
  - apply den_rep in D. destruct D as (n & L & D). apply (iter_ge _ (minInputLen a)) in D; [|intros x y H; apply IH; [apply Ok|exact H]]. nia.
  - apply den_cat in D. destruct D as (k & A & B). apply IHa in A; [|apply Ok]. apply IHb in B; [|apply Ok]. lia.
Qed.
Lemma den_range s re i j : Den s re i j -> (i <= length s)%nat -> (i <= j <= length s)%nat.
Proof.
  induction 1; intros L; try lia; try (match goal with H : rune_at _ _ _ _ |- _ => destruct (rune_at_facts _ _ _ _ H) as ((X & Y) & _) end; lia).
Qed.
