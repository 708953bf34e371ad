(** GoRegexpPike.v - proof that Pike's machine of GoRegexp.v finds a run exactly when there is one (for C97). *)
From Verif Require Import Base BaseFacts GoStr GoStrLit Bip32 GoCodec GoRegexp SpecRegexp GoRegexpIn GoRegexpRun.

Section Pike.
Variable p : list Inst.
Variable s : bytes.
Hypothesis W : wf p.
Variable L : nat.
Hypothesis HL : L <> 1%nat.
Notation edge := (edge p s). Notation eps := (eps p s). Notation acc := (acc p s). Notation reach := (reach p s). Notation tgt := (tgt p).
Notation from := (from s).

(** In proofs; for bip32/path.go:22, 25, bip32/reg_ver_bytes.go:75. *)
Definition pcs (q : queue) : list nat := map fst q.
(** In proofs; for bip32/path.go:22, 25, bip32/reg_ver_bytes.go:75. *)
Definition halts (i : Inst) : bool := is_rune (Op i) || is_match (Op i).
(** In proofs; for bip32/path.go:22, 25, bip32/reg_ver_bytes.go:75. *)
Definition entry (d : nat * option (list Z)) : Prop :=
  tgt (fst d) /\ exists i, nth_error p (fst d) = Some i /\ match snd d with Some c => length c = L /\ halts i = true | None => halts i = false end.
(** In proofs; for bip32/path.go:22, 25, bip32/reg_ver_bytes.go:75. *)
Definition queue_ok (q : queue) : Prop := NoDup (pcs q) /\ Forall entry q.
(** In proofs; for bip32/path.go:22, 25, bip32/reg_ver_bytes.go:75. *)
Definition closed (pos : nat) (q : queue) : Prop := forall x y, In x (pcs q) -> eps pos x y -> In y (pcs q).

Lemma queued_in q pc : queued q pc = true <-> In pc (pcs q).
Proof.
  unfold queued, pcs. rewrite existsb_exists, in_map_iff. split; intros (d & A & B); exists d.
  - apply Nat.eqb_eq in B. split; assumption.
  - split; [exact B|]. apply Nat.eqb_eq. exact A.
Qed.
Lemma pcs_app q r : pcs (q ++ r) = pcs q ++ pcs r.
Proof. apply map_app. Qed.
Lemma queue_len q : queue_ok q -> (length q <= length p)%nat.
Proof.
  intros [N F]. rewrite <- (map_length fst q). change (map fst q) with (pcs q). rewrite <- (seq_length (length p) 0).
  apply NoDup_incl_length; [exact N|]. intros x Hx. apply in_map_iff in Hx. destruct Hx as (d & <- & Hd).
  rewrite Forall_forall in F. destruct (F d Hd) as ((_ & j & Hj & _) & _). apply in_seq.
  assert (fst d < length p)%nat by (apply nth_error_Some; congruence). lia.
Qed.
Lemma queue_snoc q pc o : queue_ok q -> ~ In pc (pcs q) -> entry (pc, o) -> queue_ok (q ++ [(pc, o)]).
Proof.
  intros [N F] H E. split.
  - rewrite pcs_app. cbn. apply NoDup_app_remove_l || idtac. apply NoDup_rev in N. rewrite <- (rev_involutive (pcs q ++ [pc])).
    apply NoDup_rev. rewrite rev_app_distr. cbn. constructor; [rewrite <- in_rev; exact H|exact N].
  - apply Forall_app. split; [exact F|]. constructor; [exact E|constructor].
Qed.
Lemma queue_snoc_len q pc : queue_ok q -> ~ In pc (pcs q) -> tgt pc -> (length q < length p)%nat.
Proof.
  intros Q H T. destruct T as (T0 & i & Hi & Nf).
  assert (Q' : queue_ok (q ++ [(pc, if halts i then Some (repeat 0 L) else None)])).
  { apply queue_snoc; try assumption. split; [split; [exact T0|exists i; tauto]|]. exists i. split; [exact Hi|]. cbn.
    destruct (halts i) eqn:E; [split; [apply repeat_length|reflexivity]|reflexivity]. }
  apply queue_len in Q'. rewrite app_length in Q'. cbn in Q'. lia.
Qed.

Lemma add_ok pos cond : (forall op, flag_match cond op = flag_match (context s pos) op) ->
  forall fuel q pc c, (length p - length q < fuel)%nat -> queue_ok q -> tgt pc -> length c = L ->
  exists new, add fuel p q pc pos c cond = Ret (q ++ new) /\ queue_ok (q ++ new) /\ In pc (pcs (q ++ new)) /\
    (forall x, In x (pcs new) -> reach (pc, pos) (x, pos)) /\
    (forall x y, In x (pcs new) -> eps pos x y -> In y (pcs (q ++ new))).
Proof.
  intros FC. induction fuel as [|fuel IH]; intros q pc c F Q T Lc; [lia|]. cbn [add].
  pose proof T as (T0 & i & Hi & Nf). replace (pc =? 0)%nat with false by (symmetry; apply Nat.eqb_neq; exact T0).
  destruct (queued q pc) eqn:Eq.
  { exists []. rewrite app_nil_r. split; [reflexivity|]. split; [exact Q|]. split; [apply queued_in; exact Eq|]. split; intros x; cbn; easy. }
  assert (Nin : ~ In pc (pcs q)) by (rewrite <- queued_in, Eq; discriminate).
  pose proof (queue_snoc_len q pc Q Nin T) as QL.
  rewrite (get_some _ _ _ Hi). cbn [bind]. destruct (W _ _ Hi) as (Nam & Tg & Rn).
  assert (EpsI : forall y, eps pos pc y -> Op i = InstAlt /\ (y = Out i \/ y = Arg i) \/ (Op i = InstCapture \/ Op i = InstNop) /\ y = Out i \/
                           Op i = InstEmptyWidth /\ flag_match cond (Arg i) = true /\ y = Out i).
  { intros y E. inversion E as [? i' Hi' Ho'|? i' Hi' Ho'|? i' Hi' Ho' Hf']; subst; rewrite Hi in Hi'; injection Hi' as <-; rewrite ?FC; tauto. }
  (* an instruction that stops here *)
  assert (Stop : forall o, entry (pc, o) -> (forall y, ~ eps pos pc y) -> exists new, Ret (q ++ [(pc, o)]) = Ret (q ++ new) /\ queue_ok (q ++ new) /\
    In pc (pcs (q ++ new)) /\ (forall x, In x (pcs new) -> reach (pc, pos) (x, pos)) /\ (forall x y, In x (pcs new) -> eps pos x y -> In y (pcs (q ++ new)))).
  { intros o Eo NE. exists [(pc, o)]. split; [reflexivity|]. split; [apply queue_snoc; assumption|].
    split; [rewrite pcs_app; apply in_or_app; right; left; reflexivity|]. split.
    - intros x [<-|[]]. apply r_refl.
    - intros x y [<-|[]] E. elim (NE y E). }
  (* an instruction with one successor *)
  assert (Onward : halts i = false -> forall c, length c = L -> eps pos pc (Out i) -> (forall y, eps pos pc y -> y = Out i) ->
    exists new, add fuel p (q ++ [(pc, None)]) (Out i) pos c cond = Ret (q ++ new) /\ queue_ok (q ++ new) /\
    In pc (pcs (q ++ new)) /\ (forall x, In x (pcs new) -> reach (pc, pos) (x, pos)) /\ (forall x y, In x (pcs new) -> eps pos x y -> In y (pcs (q ++ new)))).
  { intros Hh c' Lc' E1 EU. assert (Q1 : queue_ok (q ++ [(pc, None)])).
    { apply queue_snoc; try assumption. split; [exact T|]. exists i. split; [exact Hi|exact Hh]. }
    destruct (IH (q ++ [(pc, None)]) (Out i) c') as (new & Ea & Qa & Ia & Ra & Ca); try assumption.
    { rewrite app_length. cbn. lia. }
    { exact (eps_inside _ _ _ _ _ W E1). }
    exists ((pc, None) :: new). rewrite <- app_assoc in Ea, Qa, Ia, Ca. cbn [app] in Ea, Qa, Ia, Ca.
    split; [exact Ea|]. split; [exact Qa|]. split; [rewrite pcs_app; apply in_or_app; right; left; reflexivity|]. split.
    - intros x [<-|Hx]; [apply r_refl|]. cbn [fst]. specialize (Ra x Hx).
      assert (G : forall c0 c1, reach c0 c1 -> c0 = (Out i, pos) -> reach (pc, pos) c1).
      { induction 1 as [|? ? ? ? IHr Ed]; intros; subst; [eapply r_step; [apply r_refl|apply e_eps; exact E1]|]. eapply r_step; [apply IHr; reflexivity|exact Ed]. }
      exact (G _ _ Ra eq_refl).
    - intros x y [<-|Hx] E; [cbn [fst] in E; rewrite (EU y E); exact Ia|exact (Ca x y Hx E)]. }
  assert (RC : forall x y, eps pos x y -> forall z, reach (y, pos) z -> reach (x, pos) z).
  { intros x y E z R. remember (y, pos) as yy. revert Heqyy. induction R as [|? ? ? ? IHr Ed]; intros; subst;
      [eapply r_step; [apply r_refl|apply e_eps; exact E]|eapply r_step; [apply IHr; reflexivity|exact Ed]]. }
  destruct (Op i) eqn:Ho; try congruence.
  - (* alt *)
    assert (Hh : halts i = false) by (unfold halts; rewrite Ho; reflexivity).
    assert (Q1 : queue_ok (q ++ [(pc, None)])).
    { apply queue_snoc; try assumption. split; [exact T|]. exists i. split; [exact Hi|exact Hh]. }
    destruct (IH (q ++ [(pc, None)]) (Out i) c) as (n1 & Ea & Qa & Ia & Ra & Ca); try assumption; [rewrite app_length; cbn; lia|apply Tg|].
    rewrite Ea. cbn [bind].
    destruct (IH ((q ++ [(pc, None)]) ++ n1) (Arg i) c) as (n2 & Eb & Qb & Ib & Rb & Cb); try assumption; [rewrite !app_length; cbn; lia|apply Tg|].
    exists ((pc, None) :: n1 ++ n2). rewrite Eb.
    replace (q ++ (pc, None) :: n1 ++ n2) with (((q ++ [(pc, None)]) ++ n1) ++ n2) by (rewrite <- !app_assoc; reflexivity).
    split; [reflexivity|]. split; [exact Qb|]. split; [rewrite !pcs_app; apply in_or_app; left; apply in_or_app; left; apply in_or_app; right; left; reflexivity|].
    assert (EO : eps pos pc (Out i)) by (apply (e_out _ _ _ _ _ Hi); tauto).
    assert (EA : eps pos pc (Arg i)) by (apply (e_arg _ _ _ _ _ Hi); tauto).
    split.
    + intros x [<-|Hx]; [apply r_refl|]. change (In x (pcs (n1 ++ n2))) in Hx. rewrite pcs_app in Hx. apply in_app_or in Hx.
      destruct Hx as [Hx|Hx]; [apply (RC _ _ EO), Ra|apply (RC _ _ EA), Rb]; exact Hx.
    + assert (Up : forall y, In y (pcs ((q ++ [(pc, None)]) ++ n1)) -> In y (pcs (((q ++ [(pc, None)]) ++ n1) ++ n2))).
      { intros y Hy. rewrite pcs_app. apply in_or_app. left. exact Hy. }
      intros x y [<-|Hx] E.
      * cbn [fst] in E. destruct (EpsI y E) as [(_ & [-> | ->])|[([X|X] & _)|(X & _)]]; try discriminate; [apply Up; exact Ia|exact Ib].
      * change (In x (pcs (n1 ++ n2))) in Hx. rewrite pcs_app in Hx. apply in_app_or in Hx. destruct Hx as [Hx|Hx]; [apply Up; exact (Ca x y Hx E)|exact (Cb x y Hx E)].
  - (* capture *)
    assert (Hh : halts i = false) by (unfold halts; rewrite Ho; reflexivity).
    assert (EO : eps pos pc (Out i)) by (apply (e_out _ _ _ _ _ Hi); tauto).
    assert (EU : forall y, eps pos pc y -> y = Out i).
    { intros y E. destruct (EpsI y E) as [(X & _)|[(_ & ->)|(X & _)]]; try congruence. }
    destruct (Arg i <? length c)%nat eqn:Ea.
    + destruct (put_some c (Arg i) (Z.of_nat pos)) as (c' & Ep & Lp & _). { apply Nat.ltb_lt. exact Ea. }
      rewrite Ep. cbn [bind]. apply Onward; try assumption. congruence.
    + apply Onward; assumption.
  - (* empty width *)
    assert (Hh : halts i = false) by (unfold halts; rewrite Ho; reflexivity).
    destruct (flag_match cond (Arg i)) eqn:Ef.
    + apply Onward; try assumption.
      * apply (e_empty _ _ _ _ _ Hi Ho). rewrite <- FC. exact Ef.
      * intros y E. destruct (EpsI y E) as [(X & _)|[([X|X] & _)|(_ & _ & ->)]]; try congruence.
    + apply Stop.
      * split; [exact T|]. exists i. split; [exact Hi|exact Hh].
      * intros y E. destruct (EpsI y E) as [(X & _)|[([X|X] & _)|(_ & X & _)]]; try congruence.
  - (* match *)
    apply Stop.
    + split; [exact T|]. exists i. split; [exact Hi|]. split; [exact Lc|unfold halts; rewrite Ho; reflexivity].
    + intros y E. destruct (EpsI y E) as [(X & _)|[([X|X] & _)|(X & _)]]; congruence.
  - (* nop *)
    assert (Hh : halts i = false) by (unfold halts; rewrite Ho; reflexivity).
    assert (EO : eps pos pc (Out i)) by (apply (e_out _ _ _ _ _ Hi); tauto).
    assert (EU : forall y, eps pos pc y -> y = Out i).
    { intros y E. destruct (EpsI y E) as [(X & _)|[(_ & ->)|(X & _)]]; try congruence. }
    apply Onward; assumption.
  - apply Stop.
    + split; [exact T|]. exists i. split; [exact Hi|]. split; [exact Lc|unfold halts; rewrite Ho; reflexivity].
    + intros y E. destruct (EpsI y E) as [(X & _)|[([X|X] & _)|(X & _)]]; congruence.
  - apply Stop.
    + split; [exact T|]. exists i. split; [exact Hi|]. split; [exact Lc|unfold halts; rewrite Ho; reflexivity].
    + intros y E. destruct (EpsI y E) as [(X & _)|[([X|X] & _)|(X & _)]]; congruence.
Qed.
Lemma add_closed pos q new : closed pos q -> (forall x y, In x (pcs new) -> eps pos x y -> In y (pcs (q ++ new))) -> closed pos (q ++ new).
Proof.
  intros C H x y Hx E. rewrite pcs_app in Hx. apply in_app_or in Hx. destruct Hx as [Hx|Hx]; [|exact (H x y Hx E)].
  rewrite pcs_app. apply in_or_app. left. exact (C x y Hx E).
Qed.

(** In proofs; for bip32/path.go:22, 25, bip32/reg_ver_bytes.go:75. *)
Definition fin (x : nat) : Prop := exists i, nth_error p x = Some i /\ Op i = InstMatch.
(** An accepting run from a closed queue: a final instruction of the queue, or a rune read by one of its instructions. *)
Lemma acc_closed q pos x : closed pos q -> In x (pcs q) -> acc (x, pos) ->
  (exists y, In y (pcs q) /\ fin y) \/
  (exists y i c w, In y (pcs q) /\ nth_error p y = Some i /\ is_rune (Op i) = true /\ rune_at s pos c w /\ MatchRune i c = Ret true /\ acc (Out i, pos + w)%nat).
Proof.
  intros C Hx A. remember (x, pos) as cc. revert x Hx Heqcc. induction A as [c Hf|c c' E A IH]; intros x Hx ->.
  - left. exists x. split; [exact Hx|exact Hf].
  - inversion E as [? pc' ? He|? i ? r w Hi Ho Hr Hm]; subst.
    + apply (IH pc'); [exact (C _ _ Hx He)|reflexivity].
    + right. exists x, i, r, w. tauto.
Qed.

(** m_step, when the rune at pos is c of w bytes *)
Lemma m_step_ok pos c w cond : rune_at s pos c w -> (forall op, flag_match cond op = flag_match (context s (pos + w)) op) ->
  forall run next matched mc, Forall entry run -> queue_ok next -> closed (pos + w) next -> length mc = L ->
  exists next' matched' mc', m_step p run next pos (pos + w) c cond matched mc = Ret (next', matched', mc') /\
    queue_ok next' /\ closed (pos + w) next' /\ length mc' = L /\ (forall y, In y (pcs next) -> In y (pcs next')) /\
    (matched' = true <-> matched = true \/ exists x, In x (pcs run) /\ fin x) /\
    (forall y, In y (pcs next') -> In y (pcs next) \/ exists x i, In x (pcs run) /\ nth_error p x = Some i /\ is_rune (Op i) = true /\
        MatchRune i c = Ret true /\ reach (Out i, pos + w)%nat (y, pos + w)%nat) /\
    ((forall x, In x (pcs run) -> ~ fin x) -> forall x i, In x (pcs run) -> nth_error p x = Some i -> is_rune (Op i) = true -> MatchRune i c = Ret true ->
        In (Out i) (pcs next')).
Proof.
  intros R FC. induction run as [|[x o] run IH]; intros next matched mc Fr Qn Cn Lm; cbn [m_step].
  { exists next, matched, mc. repeat (split; [first [reflexivity|exact Qn|exact Cn|exact Lm|tauto]|]).
    split; [split; [tauto|intros [H|(x & [] & _)]; exact H]|]. split; [tauto|]. intros _ x i []. }
  apply Forall_inv_tail in Fr as Fr'. pose proof (Forall_inv Fr) as ((T0 & _) & i & Hi & Hh). cbn [fst snd] in T0, Hi, Hh.
  destruct o as [cc|].
  - destruct Hh as [Lc Hh]. rewrite (get_some _ _ _ Hi). cbn [bind].
    assert (RuneCase : is_rune (Op i) = true -> exists next' matched' mc',
       (let! ok := MatchRune i c in
        if ok then let! next := add (S (length p)) p next (Out i) (pos + w) cc cond in m_step p run next pos (pos + w) c cond matched mc
        else m_step p run next pos (pos + w) c cond matched mc) = Ret (next', matched', mc') /\
       queue_ok next' /\ closed (pos + w) next' /\ length mc' = L /\ (forall y, In y (pcs next) -> In y (pcs next')) /\
       (matched' = true <-> matched = true \/ exists x0, In x0 (pcs ((x, Some cc) :: run)) /\ fin x0) /\
       (forall y, In y (pcs next') -> In y (pcs next) \/ exists x0 i0, In x0 (pcs ((x, Some cc) :: run)) /\ nth_error p x0 = Some i0 /\ is_rune (Op i0) = true /\
          MatchRune i0 c = Ret true /\ reach (Out i0, pos + w)%nat (y, pos + w)%nat) /\
       ((forall x0, In x0 (pcs ((x, Some cc) :: run)) -> ~ fin x0) -> forall x0 i0, In x0 (pcs ((x, Some cc) :: run)) -> nth_error p x0 = Some i0 ->
          is_rune (Op i0) = true -> MatchRune i0 c = Ret true -> In (Out i0) (pcs next'))).
    { intros Ho. assert (NFx : ~ fin x). { intros (i' & Hi' & Ho'). rewrite Hi in Hi'. injection Hi' as <-. rewrite Ho' in Ho. discriminate. }
      destruct (W _ _ Hi) as (_ & Tg & Rn). destruct (Rn Ho) as (f & Hf & _). rewrite Hf. cbn [bind]. destruct (f c) eqn:Ef.
      - destruct (add_ok (pos + w) cond FC (S (length p)) next (Out i) cc) as (new & Ea & Qa & Ia & Ra & Ca); try assumption; [lia|destruct (Op i); try discriminate; exact Tg|].
        rewrite Ea. cbn [bind].
        destruct (IH (next ++ new) matched mc Fr' Qa (add_closed _ _ _ Cn Ca) Lm) as (n' & m' & mc' & E1 & E2 & E3 & E4 & E5 & E6 & E7 & E8).
        exists n', m', mc'. split; [exact E1|]. split; [exact E2|]. split; [exact E3|]. split; [exact E4|].
        split; [intros y Hy; apply E5; rewrite pcs_app; apply in_or_app; left; exact Hy|].
        split. { rewrite E6. split; (intros [H|(x0 & H & H')]; [left; exact H|right; exists x0; split; [|exact H']]).
                 - right; exact H. - destruct H as [<-|H]; [contradiction|exact H]. }
        split.
        + intros y Hy. destruct (E7 y Hy) as [H|(x0 & i0 & H & H')]; [|right; exists x0, i0; split; [right; exact H|exact H']].
          rewrite pcs_app in H. apply in_app_or in H. destruct H as [H|H]; [left; exact H|]. right. exists x, i. split; [left; reflexivity|].
          repeat split; try assumption; [rewrite Hf, Ef; reflexivity|exact (Ra y H)].
        + intros NF x0 i0 [<-|H] Hi0 Ho0 Hm.
          * cbn [fst] in Hi0. rewrite Hi in Hi0. injection Hi0 as <-. apply E5. exact Ia.
          * apply (E8 (fun y Hy => NF y (or_intror Hy)) x0 i0 H Hi0 Ho0 Hm).
      - destruct (IH next matched mc Fr' Qn Cn Lm) as (n' & m' & mc' & E1 & E2 & E3 & E4 & E5 & E6 & E7 & E8).
        exists n', m', mc'. split; [exact E1|]. split; [exact E2|]. split; [exact E3|]. split; [exact E4|]. split; [exact E5|].
        split. { rewrite E6. split; (intros [H|(x0 & H & H')]; [left; exact H|right; exists x0; split; [|exact H']]).
                 - right; exact H. - destruct H as [<-|H]; [contradiction|exact H]. }
        split.
        + intros y Hy. destruct (E7 y Hy) as [H|(x0 & i0 & H & H')]; [left; exact H|right; exists x0, i0; split; [right; exact H|exact H']].
        + intros NF x0 i0 [<-|H] Hi0 Ho0 Hm.
          * cbn [fst] in Hi0. rewrite Hi in Hi0. injection Hi0 as <-. rewrite Hf, Ef in Hm. discriminate.
          * apply (E8 (fun y Hy => NF y (or_intror Hy)) x0 i0 H Hi0 Ho0 Hm). }
    unfold halts in Hh. destruct (Op i) eqn:Ho; try discriminate.
    + (* match: the rest is cut off *)
      assert (Hf : fin x) by (exists i; split; assumption).
      assert (G : exists mc', (match cc with [] => Ret mc | _ => put cc 1 (Z.of_nat pos) end) = Ret mc' /\ length mc' = L).
      { destruct cc as [|c0 cs]; [exists mc; split; [reflexivity|exact Lm]|].
        destruct (put_some (c0 :: cs) 1 (Z.of_nat pos)) as (c' & Ep & Lp & _). { cbn [length] in *. lia. } exists c'. split; [exact Ep|congruence]. }
      destruct G as (mc' & Eg & Lg). rewrite Eg. cbn [bind]. exists next, true, mc'. split; [reflexivity|]. split; [exact Qn|]. split; [exact Cn|]. split; [exact Lg|].
      split; [tauto|]. split; [split; [intros _; right; exists x; split; [left; reflexivity|exact Hf]|reflexivity]|]. split; [tauto|].
      intros NF. elim (NF x (or_introl eq_refl) Hf).
    + exact (RuneCase eq_refl).
    + exact (RuneCase eq_refl).
  - assert (NFx : ~ fin x). { intros (i' & Hi' & Ho'). rewrite Hi in Hi'. injection Hi' as <-. unfold halts in Hh. rewrite Ho' in Hh. discriminate. }
    destruct (IH next matched mc Fr' Qn Cn Lm) as (n' & m' & mc' & E1 & E2 & E3 & E4 & E5 & E6 & E7 & E8).
    exists n', m', mc'. split; [exact E1|]. split; [exact E2|]. split; [exact E3|]. split; [exact E4|]. split; [exact E5|].
    split. { rewrite E6. split; (intros [H|(x0 & H & H')]; [left; exact H|right; exists x0; split; [|exact H']]).
             - right; exact H. - destruct H as [<-|H]; [contradiction|exact H]. }
    split.
    + intros y Hy. destruct (E7 y Hy) as [H|(x0 & i0 & H & H')]; [left; exact H|right; exists x0, i0; split; [right; exact H|exact H']].
    + intros NF x0 i0 [<-|H] Hi0 Ho0 Hm.
      * cbn [fst] in Hi0. rewrite Hi in Hi0. injection Hi0 as <-. unfold halts in Hh. rewrite Ho0 in Hh. discriminate.
      * apply (E8 (fun y Hy => NF y (or_intror Hy)) x0 i0 H Hi0 Ho0 Hm).
Qed.
(** m_step at the end of the text *)
Lemma m_step_end pos cond : forall run next matched mc, Forall entry run -> length mc = L ->
  exists matched' mc', m_step p run next pos pos (-1) cond matched mc = Ret (next, matched', mc') /\ length mc' = L /\
    (matched' = true <-> matched = true \/ exists x, In x (pcs run) /\ fin x).
Proof.
  induction run as [|[x o] run IH]; intros next matched mc Fr Lm; cbn [m_step].
  { exists matched, mc. split; [reflexivity|]. split; [exact Lm|]. split; [tauto|intros [H|(x & [] & _)]; exact H]. }
  apply Forall_inv_tail in Fr as Fr'. pose proof (Forall_inv Fr) as ((T0 & _) & i & Hi & Hh). cbn [fst snd] in T0, Hi, Hh.
  assert (Skip : ~ fin x -> exists matched' mc', m_step p run next pos pos (-1) cond matched mc = Ret (next, matched', mc') /\ length mc' = L /\
    (matched' = true <-> matched = true \/ exists x0, In x0 (pcs ((x, o) :: run)) /\ fin x0)).
  { intros NFx. destruct (IH next matched mc Fr' Lm) as (m' & mc' & E1 & E2 & E3). exists m', mc'. split; [exact E1|]. split; [exact E2|].
    rewrite E3. split; (intros [H|(x0 & H & H')]; [left; exact H|right; exists x0; split; [|exact H']]).
    - right; exact H. - destruct H as [<-|H]; [contradiction|exact H]. }
  destruct o as [cc|].
  - destruct Hh as [Lc Hh]. rewrite (get_some _ _ _ Hi). cbn [bind].
    assert (RuneCase : is_rune (Op i) = true -> exists matched' mc',
       (let! ok := MatchRune i (-1) in
        if ok then let! next := add (S (length p)) p next (Out i) pos cc cond in m_step p run next pos pos (-1) cond matched mc
        else m_step p run next pos pos (-1) cond matched mc) = Ret (next, matched', mc') /\ length mc' = L /\
       (matched' = true <-> matched = true \/ exists x0, In x0 (pcs ((x, Some cc) :: run)) /\ fin x0)).
    { intros Ho. destruct (W _ _ Hi) as (_ & _ & Rn). destruct (Rn Ho) as (f & Hf & He). rewrite Hf, He. cbn [bind]. apply Skip.
      intros (i' & Hi' & Ho'). rewrite Hi in Hi'. injection Hi' as <-. rewrite Ho' in Ho. discriminate. }
    unfold halts in Hh. destruct (Op i) eqn:Ho; try discriminate.
    + assert (Hf : fin x) by (exists i; split; assumption).
      assert (G : exists mc', (match cc with [] => Ret mc | _ => put cc 1 (Z.of_nat pos) end) = Ret mc' /\ length mc' = L).
      { destruct cc as [|c0 cs]; [exists mc; split; [reflexivity|exact Lm]|].
        destruct (put_some (c0 :: cs) 1 (Z.of_nat pos)) as (c' & Ep & Lp & _). { cbn [length] in *. lia. } exists c'. split; [exact Ep|congruence]. }
      destruct G as (mc' & Eg & Lg). rewrite Eg. cbn [bind]. exists true, mc'. split; [reflexivity|]. split; [exact Lg|].
      split; [intros _; right; exists x; split; [left; reflexivity|exact Hf]|reflexivity].
    + exact (RuneCase eq_refl).
    + exact (RuneCase eq_refl).
  - apply Skip. intros (i' & Hi' & Ho'). rewrite Hi in Hi'. injection Hi' as <-. unfold halts in Hh. rewrite Ho' in Hh. discriminate.
Qed.

Variables start cond fuel0 : nat.
Hypothesis HS : StartCond fuel0 p start 0 = Ret cond.
Hypothesis TS : tgt start.

Lemma m_loop_ok : forall fuel run pos r width r1 width1 flag matched mc, (length s - pos < fuel)%nat -> (pos <= length s)%nat ->
  queue_ok run -> closed pos run -> step s pos = (r, width) -> step s (pos + width) = (r1, width1) ->
  (forall op, flag_match flag op = flag_match (context s pos) op) -> length mc = L ->
  exists m mc', m_loop fuel p start cond s run pos r width r1 width1 flag matched mc = Ret (m, mc') /\
    (m = true <-> matched = true \/ (exists x, In x (pcs run) /\ acc (x, pos)) \/ exists i, from pos i /\ acc (start, i)).
Proof.
  induction fuel as [|fuel IH]; intros run pos r width r1 width1 flag matched mc F Le Qr Cr Es Es1 FC Lm; [lia|]. cbn [m_loop].
  destruct (match run with [] => (Nat.testbit cond 2 && negb (pos =? 0)%nat) || matched | _ => false end) eqn:Est.
  { exists matched, mc. split; [reflexivity|]. destruct run; [|discriminate]. split; [tauto|]. intros [H|[(x & [] & _)|(i & Fi & Ai)]]; [exact H|].
    destruct matched; [reflexivity|]. rewrite Bool.orb_false_r in Est. apply andb_prop in Est. destruct Est as [B2 P0].
    destruct (start_anchored p s _ _ _ i HS (from_in _ _ _ Le Fi) Ai) as [_ X]. specialize (X B2). pose proof (from_le _ _ _ Fi).
    apply Bool.negb_true_iff, Nat.eqb_neq in P0. lia. }
  clear Est. cbv zeta.
  set (mc0 := if matched then mc else set_start mc pos). assert (Lm0 : length mc0 = L) by (unfold mc0; destruct matched; rewrite ?set_start_length; exact Lm).
  assert (G : exists run1, (if matched then Ret run else add (S (length p)) p run start pos mc0 flag) = Ret run1 /\ queue_ok run1 /\ closed pos run1 /\
     (matched = false -> In start (pcs run1) /\ (forall x, In x (pcs run) -> In x (pcs run1)) /\
        forall x, In x (pcs run1) -> In x (pcs run) \/ reach (start, pos) (x, pos))).
  { destruct matched; [exists run; repeat split; try assumption; try apply Qr; discriminate|].
    destruct (add_ok pos flag FC (S (length p)) run start mc0) as (new & Ea & Qa & Ia & Ra & Ca); try assumption; [lia|].
    exists (run ++ new). split; [exact Ea|]. split; [exact Qa|]. split; [apply add_closed; assumption|]. intros _. split; [exact Ia|]. split.
    - intros x Hx. rewrite pcs_app. apply in_or_app. left. exact Hx.
    - intros x Hx. rewrite pcs_app in Hx. apply in_app_or in Hx. destruct Hx as [Hx|Hx]; [left; exact Hx|right; exact (Ra x Hx)]. }
  destruct G as (run1 & E1 & Q1 & C1 & P1). rewrite E1. cbn [bind].
  destruct (step_cases s pos) as [(c & w & Es' & R)|[Lp Es']]; rewrite Es in Es'; injection Es' as -> ->.
  - pose proof (rune_at_facts _ _ _ _ R) as [[W1 W2] C0]. destruct (context_next _ _ _ _ R) as [X1 X2].
    assert (FC' : forall op, flag_match (c, r1) op = flag_match (context s (pos + w)) op).
    { intros op. destruct (context s (pos + w)) as [a b]. cbn [fst snd] in X1, X2. rewrite Es1 in X2. cbn [fst] in X2. subst b. apply flag_eqv; [exact X1|left; reflexivity]. }
    destruct (m_step_ok pos c w (c, r1) R FC' run1 [] matched mc0) as (n' & m' & mc' & S1 & S2 & S3 & S4 & _ & S6 & S7 & S8); try assumption.
    { apply Q1. } { split; constructor. } { intros x y []. }
    rewrite S1. cbn [bind]. replace (w =? 0)%nat with false by (symmetry; apply Nat.eqb_neq; lia).
    (* when nothing matched before: what the result must be *)
    assert (Key : matched = false -> m' = false ->
      ((exists x, In x (pcs n') /\ acc (x, pos + w)%nat) \/ (exists i, from (pos + w) i /\ acc (start, i)) <->
       (exists x, In x (pcs run) /\ acc (x, pos)) \/ (exists i, from pos i /\ acc (start, i)))).
    { intros Mf Mf'. destruct (P1 Mf) as (Hst & Hup & Hdn).
      assert (NF : forall x, In x (pcs run1) -> ~ fin x).
      { intros x Hx Hf. assert (m' = true) by (apply S6; right; exists x; tauto). congruence. }
      assert (Inrun : (exists x, In x (pcs run1) /\ acc (x, pos)) <-> exists x, In x (pcs n') /\ acc (x, pos + w)%nat).
      { split.
        - intros (x & Hx & Ax). destruct (acc_closed run1 pos x C1 Hx Ax) as [(y & Hy & Hf)|(y & i & c' & w' & Hy & Hi & Ho & R' & Hm & Ay)]; [elim (NF y Hy Hf)|].
          destruct R as [_ R], R' as [_ R']. rewrite R in R'. injection R' as <- <-. exists (Out i). split; [|exact Ay].
          exact (S8 NF y i Hy Hi Ho Hm).
        - intros (y & Hy & Ay). destruct (S7 y Hy) as [[]|(x & i & Hx & Hi & Ho & Hm & Rc)]. exists x. split; [exact Hx|].
          eapply a_step; [apply (e_rune p s x i pos c w Hi Ho R Hm)|]. exact (reach_acc _ _ _ _ Rc Ay). }
      rewrite <- Inrun. split.
      - intros [(x & Hx & Ax)|(i & Fi & Ai)].
        + destruct (Hdn x Hx) as [Hx'|Rc]; [left; exists x; tauto|]. right. exists pos. split; [apply f_0|]. exact (reach_acc _ _ _ _ Rc Ax).
        + right. exists i. split; [exact (from_next _ _ _ _ _ R Fi)|exact Ai].
      - intros [(x & Hx & Ax)|(i & Fi & Ai)]; [left; exists x; split; [exact (Hup x Hx)|exact Ax]|].
        destruct (from_cases _ _ _ Fi) as [->|(c' & w' & R' & F')]; [left; exists start; tauto|].
        destruct R as [_ R], R' as [_ R']. rewrite R in R'. injection R' as <- <-. right. exists i. tauto. }
    assert (Fin : m' = true -> matched = true \/ (exists x, In x (pcs run) /\ acc (x, pos)) \/ exists i, from pos i /\ acc (start, i)).
    { intros Mt. apply S6 in Mt. destruct Mt as [Mt|(x & Hx & Hf)]; [left; exact Mt|]. destruct matched; [left; reflexivity|]. right.
      destruct (P1 eq_refl) as (_ & _ & Hdn). assert (Ax : acc (x, pos)) by (apply a_match; exact Hf).
      destruct (Hdn x Hx) as [Hx'|Rc]; [left; exists x; tauto|]. right. exists pos. split; [apply f_0|]. exact (reach_acc _ _ _ _ Rc Ax). }
    destruct (match mc' with [] => m' | _ => false end) eqn:Estop.
    { exists m', mc'. split; [reflexivity|]. destruct mc'; [|discriminate]. subst m'. split; [exact Fin|reflexivity]. }
    assert (Next : exists r2 w2, (if r1 =? endOfText then (r1, width1) else step s (pos + w + width1)) = (r2, w2) /\ step s (pos + w + width1) = (r2, w2)).
    { destruct (step_cases s (pos + w)) as [(c1 & w1 & E' & R1)|[L1 E']]; rewrite Es1 in E'; injection E' as -> ->.
      - pose proof (rune_at_facts _ _ _ _ R1) as [_ C1']. replace (c1 =? endOfText) with false by (unfold endOfText; lia).
        destruct (step s (pos + w + w1)) as [r2 w2]. exists r2, w2. tauto.
      - exists (-1), O. split; [reflexivity|]. apply step_end. lia. }
    destruct Next as (r2 & w2 & En & En'). rewrite En.
    destruct (IH n' (pos + w)%nat r1 width1 r2 w2 (c, r1) m' mc') as (m & mc2 & EI & HI); try assumption; [lia|].
    exists m, mc2. split; [exact EI|]. rewrite HI. destruct m'.
    + split; [intros _; apply Fin; reflexivity|intros _; left; reflexivity].
    + destruct matched. { assert (false = true) by (apply S6; left; reflexivity). discriminate. }
      specialize (Key eq_refl eq_refl). rewrite <- Key. tauto.
  - cbn [Nat.add] in *. rewrite Nat.add_0_r. destruct (m_step_end pos (-1, r1) run1 [] matched mc0) as (m' & mc' & S1 & S2 & S3); try assumption. { apply Q1. }
    rewrite S1. cbn [bind]. change (0 =? 0)%nat with true. cbv iota. exists m', mc'. split; [reflexivity|]. rewrite S3.
    split.
    + intros [H|(x & Hx & Hf)]; [left; exact H|]. destruct matched; [left; reflexivity|]. right.
      destruct (P1 eq_refl) as (_ & _ & Hdn). assert (Ax : acc (x, pos)) by (apply a_match; exact Hf).
      destruct (Hdn x Hx) as [Hx'|Rc]; [left; exists x; tauto|]. right. exists pos. split; [apply f_0|]. exact (reach_acc _ _ _ _ Rc Ax).
    + intros [H|H]; [left; exact H|]. destruct matched; [left; reflexivity|]. right. destruct (P1 eq_refl) as (Hst & Hup & Hdn).
      assert (G : exists x, In x (pcs run1) /\ acc (x, pos)).
      { destruct H as [(x & Hx & Ax)|(i & Fi & Ai)]; [exists x; split; [exact (Hup x Hx)|exact Ax]|].
        destruct (from_cases _ _ _ Fi) as [->|(c' & w' & (R' & _) & F')]; [exists start; tauto|lia]. }
      destruct G as (x & Hx & Ax). destruct (acc_closed run1 pos x C1 Hx Ax) as [H'|(y & i & c' & w' & _ & _ & _ & (R' & _) & _)]; [exact H'|lia].
Qed.

Theorem machine_ok pos : (pos <= length s)%nat ->
  exists o, machine p start cond s pos L = Ret o /\ (o <> None <-> exists i, from pos i /\ acc (start, i)).
Proof.
  intros Le. unfold machine. destruct (cond =? 255)%nat eqn:E255.
  { apply Nat.eqb_eq in E255. eexists. split; [reflexivity|]. split; [congruence|]. intros (i & F & A).
    destruct (start_anchored p s _ _ _ _ HS (from_in _ _ _ Le F) A) as [X _]. contradiction. }
  destruct (step s pos) as [r width] eqn:Es.
  assert (Next : exists r1 w1, (if r =? endOfText then (endOfText, O) else step s (pos + width)) = (r1, w1) /\ step s (pos + width) = (r1, w1)).
  { destruct (step_cases s pos) as [(c & w & E' & R)|[L1 E']]; rewrite Es in E'; injection E' as -> ->.
    - pose proof (rune_at_facts _ _ _ _ R) as [_ C1]. replace (c =? endOfText) with false by (unfold endOfText; lia).
      destruct (step s (pos + w)) as [r1 w1]. exists r1, w1. tauto.
    - exists (-1), O. split; [reflexivity|]. apply step_end. lia. }
  destruct Next as (r1 & w1 & En & En'). rewrite En.
  cbv beta iota zeta.
  match goal with |- context [m_loop _ _ _ _ _ _ _ _ _ _ _ ?f _ _] => set (flag := f) end.
  destruct (m_loop_ok (length s + 2) [] pos r width r1 w1 flag false (repeat (-1) L)) as (m & mc & EI & HI);
    try assumption; try lia.
  { split; constructor. } { intros x y []. }
  { intros op. unfold flag. destruct pos; [|reflexivity]. rewrite context_start, Es. reflexivity. }
  { apply repeat_length. }
  rewrite EI. cbn [bind]. eexists. split; [reflexivity|]. destruct m.
  - split; [|discriminate]. intros _. destruct (proj1 HI eq_refl) as [H|[(x & [] & _)|H]]; [discriminate|exact H].
  - split; [congruence|]. intros H. assert (false = true) by (apply HI; right; right; exact H). discriminate.
Qed.
End Pike.
