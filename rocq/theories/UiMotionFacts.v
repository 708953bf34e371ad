(** UiMotionFacts.v - proofs about UiMotion.v. *)
From Verif Require Import Base BaseFacts GoStr GoStrFacts Prims Hash HashFacts Bip39 SpecBip39 Bip39Facts UtilMnemonic UtilMnemonicFacts Bip32Path Bip32Reg Bip32 Bip32Facts Bip32KeyFacts Util SpecUi Ui UiFacts GoRand SpecRand GoWhole GoWholeFacts UiWhole SpecUiWhole UiWholeFacts.
From Verif Require Import Slider SpecSlider Float FloatSlider UiMotion SpecUiMotion.
From Coq Require Import Lia.

Lemma tabs_layout_fst : forall l u s, match tabs_layout_s l (u, s) with Ret (u', _) => tabs_layout l u = Ret u' | Panic => tabs_layout l u = Panic end.
Proof.
  induction l as [|i l IH]; intros u s; cbn [tabs_layout_s tabs_layout fst]; [reflexivity|]. destruct (Nat.ltb i (length (tabs u))); [|apply IH].
  unfold tab_click_s. destruct (tab_click u i) as [u1|]; cbn [bind]; [apply IH|reflexivity].
Qed.
Lemma tab_bar_fst i u s : match tab_bar_s i (u, s) with Ret (u', _) => tab_bar i u = Ret u' | Panic => tab_bar i u = Panic end.
Proof.
  unfold tab_bar_s, tab_bar. destruct (Nat.eqb _ 0); [reflexivity|]. destruct (left_click i && (selected u >? 0)); cbv zeta.
  - destruct (right_click i && _); apply tabs_layout_fst.
  - destruct (right_click i && _); apply tabs_layout_fst.
Qed.
Lemma tab_bar_rand i rd us : tab_bar_s (with_rand i rd) us = tab_bar_s i us.
Proof. reflexivity. Qed.

Lemma bR {A X} (x : A) (f : A -> outcome X) : bind (Ret x) f = f x.
Proof. reflexivity. Qed.
Lemma bP {A X} (f : A -> outcome X) : bind Panic f = Panic.
Proof. reflexivity. Qed.

Lemma some_inj {A} (a b : A) : Some a = Some b -> a = b.
Proof. congruence. Qed.

Section EQ.
Variables (fma : nat -> bool) (E : env) (T : tables) (wl : list bytes).
Hypothesis EO : env_ok E.
Hypothesis HT : after_init T.
Hypothesis HG : good_list wl.
Hypothesis HW : text_words wl.
Hypothesis SW : short_words wl.
Notation wst := (SetWordList wl).
Notation R := RealPrims.
Notation okay := (ok T wl).

Lemma handlers_split i u : handlers R T wst i u = (let! v := when (gen_click i) (onAutoCreateMnemonicClicked R T wst (rand i)) (set_path (derivationStr u) (Formatted (derivationStr u)) u) in handlers2 T wl v).
Proof.
  unfold handlers, handlers2. cbv zeta. destruct (when (gen_click i) _ _) as [u1|]; [|reflexivity]. cbn [bind]. destruct (when _ (onMnemonicChange R T wst) _) as [u2|]; [|reflexivity]. cbn [bind].
  destruct (when _ (onMnemonicPassphraseChange R T wst) _) as [u3|]; [|reflexivity]. cbn [bind]. destruct (when _ (onSeedChange R T) _) as [u4|]; [|reflexivity]. cbn [bind]. destruct (when _ (onRootKeyStrChange R T) _) as [u5|]; reflexivity.
Qed.
Lemma first_eq i u q : okay u -> (gen_click (g_in i) = true -> source_ok (g_src i)) -> gHandlers1 E T wst i u = Some q ->
  exists rd, q = when (gen_click (g_in i)) (onAutoCreateMnemonicClicked R T wst rd) (set_path (derivationStr u) (Formatted (derivationStr u)) u) /\ (forall u', q = Ret u' -> okay u').
Proof.
  intros [I TX] SO G1. pose proof real_prims_ok as HP. set (u0 := set_path (derivationStr u) (Formatted (derivationStr u)) u).
  assert (O0 : okay u0). { split; [|exact TX]. destruct I as [HI (HD & HR)]. split; [revert HI; apply I0_ext; reflexivity|]. split; [reflexivity|exact HR]. }
  unfold gHandlers1 in G1. rewrite gPathString_ok in G1. cbv zeta in G1. fold (Formatted (derivationStr u)) in G1. fold u0 in G1. destruct (gen_click (g_in i)); cbn [when].
  - destruct (gen_eq E T wl EO HT HG SW _ _ u0 q (proj2 O0) (SO eq_refl) G1) as (rd & Q & TQ & A). exists rd. split; [exact Q|].
    intros u' Eq. split; [|exact (TQ u' Eq)]. pose proof (gen_ok R T wl HP HT HG HW rd u0 (proj1 O0)) as SF. rewrite <- Q, Eq in SF. exact (proj1 SF).
  - injection G1 as <-. exists []. split; [reflexivity|]. intros u' Eq. injection Eq as <-. exact O0.
Qed.
(** In proofs; for examples/ui/one/main.go:173-412. *)
Definition wallet (r : outcome (option prog)) (g : option (outcome ui)) : Prop :=
  match r with Panic => g = Some Panic | Ret None => True | Ret (Some p) => g = Some (Ret (a_ui p)) end.
Lemma frameF_eq now w i p r : okay (a_ui p) -> (gen_click (g_in i) = true -> source_ok (g_src i)) -> gFrameF fma E T wst now w i p = Some r ->
  exists rd, r = frameF fma R T wst now w (with_rand (g_in i) rd) p /\ (forall p', r = Ret (Some p') -> okay (a_ui p')) /\ wallet r (gFrame E T wst i (a_ui p)).
Proof.
  intros O SO G. unfold gFrameF in G. unfold gFrame. destruct (gHandlers1 E T wst i (a_ui p)) as [q|] eqn:G1; [|discriminate G]. apply some_inj in G. subst r.
  destruct (first_eq i (a_ui p) q O SO G1) as (rd & Q & OQ). exists rd. unfold frameF. rewrite handlers_split. change (gen_click (with_rand (g_in i) rd)) with (gen_click (g_in i)). change (rand (with_rand (g_in i) rd)) with rd.
  rewrite <- Q. destruct q as [u1|]; rewrite ?bR, ?bP; [|split; [reflexivity|split; [discriminate|reflexivity]]]. specialize (OQ _ eq_refl).
  destruct (handlers2_eq E T wl EO HT u1 OQ) as [EH OH]. rewrite EH. destruct (handlers2 T wl u1) as [u2|]; rewrite ?bR, ?bP; [|split; [reflexivity|split; [discriminate|reflexivity]]]. specialize (OH _ eq_refl).
  destruct OH as [[I2 R2] T2]. pose proof (tab_bar_fst (g_in i) u2 (a_slider p)) as TF. rewrite tab_bar_rand. destruct (tab_bar_ok (g_in i) u2 I2) as (u3 & ET & SO3 & I3). rewrite ET in TF |- *.
  destruct (tab_bar_s (g_in i) (u2, a_slider p)) as [[u3' s3]|]; [|discriminate TF]. injection TF as <-. rewrite ?bR. rewrite (display_eq E T EO u3 I3). destruct (display R T u3) as [c|]; rewrite ?bR, ?bP; [|split; [reflexivity|split; [discriminate|reflexivity]]].
  assert (O3 : okay (set_screen c u3)). { split; [split; [exact I3|exact (Rel_sel R T wl u2 u3 SO3 R2)]|]. rewrite SO3. exact T2. }
  split; [reflexivity|]. destruct (LayoutF fma now w c s3 (a_heap p)) as [[[[s4 h4] ag] d4]|]; cbn [obind]; [|split; [discriminate|exact I]].
  split; [intros p' Eq; injection Eq as <-; exact O3|reflexivity].
Qed.
Lemma timed_exists : forall es, exists es', Forall2 same_timed es es'.
Proof.
  induction es as [|[[e t] w] es (es' & IH)]; [exists []; constructor|]. destruct (same_exists [e]) as (l & F). inversion F as [|? e' ? ? S F']; subst. exists ((e', t, w) :: es'). constructor; [|exact IH]. split; [exact S|]. split; reflexivity.
Qed.
Lemma runF_eq es : forall p r, okay (a_ui p) -> Forall g_ok (untimed es) -> gRunF fma E T wst p es = Some r ->
  exists es', Forall2 same_timed es es' /\ r = runF fma R T wst p es' /\ (forall p', r = Ret (Some p') -> okay (a_ui p')) /\ wallet r (gRun E T wst (a_ui p) (untimed es)).
Proof.
  induction es as [|[[e t] w] es IH]; intros p r O F G; cbn [gRunF] in G.
  - injection G as <-. exists []. split; [constructor|]. split; [reflexivity|]. split; [intros p' Eq; injection Eq as <-; exact O|reflexivity].
  - cbn [untimed map fst] in F |- *. inversion F as [|? ? F1 F2]; subst. destruct e as [f s|i]; cbn [gStepF] in G.
    + destruct (step_edit T wl f s (a_ui p)) as (e & SE & ST). destruct (IH (mkProg (edit f s (a_ui p)) (a_slider p) (a_heap p) (window p) (wants p)) r (edit_ok T wl f s (a_ui p) F1 O) F2 G) as (es' & FS & RE & OK & WA). exists ((e, t, w) :: es'). split; [constructor; [split; [exact SE|split; reflexivity]|exact FS]|]. split; [|split; [exact OK|exact WA]].
      cbn [runF stepF]. assert (NF : forall i, e <> Frame i) by (intros i ->; destruct f; exact SE). destruct e; try (rewrite ST; cbn [bind]; exact RE). exfalso. eapply NF. reflexivity.
    + destruct (gFrameF fma E T wst t w i p) as [q|] eqn:GF; [|discriminate G]. destruct (frameF_eq t w i p q O F1 GF) as (rd & Q & OK & WA). cbn [gRun gStep]. destruct q as [[p1|]|].
      * destruct (IH p1 r (OK _ eq_refl) F2 G) as (es' & FS & RE & OK' & WA'). exists ((Frame (with_rand (g_in i) rd), t, w) :: es'). split; [constructor; [split; [repeat split|split; reflexivity]|exact FS]|]. split; [cbn [runF stepF]; rewrite <- Q; exact RE|]. split; [exact OK'|].
        cbn [wallet] in WA. rewrite WA. exact WA'.
      * injection G as <-. destruct (timed_exists es) as (es' & FS). exists ((Frame (with_rand (g_in i) rd), t, w) :: es'). split; [constructor; [split; [repeat split|split; reflexivity]|exact FS]|]. split; [cbn [runF stepF]; rewrite <- Q; reflexivity|]. split; [discriminate|exact I].
      * injection G as <-. destruct (timed_exists es) as (es' & FS). exists ((Frame (with_rand (g_in i) rd), t, w) :: es'). split; [constructor; [split; [repeat split|split; reflexivity]|exact FS]|]. split; [cbn [runF stepF]; rewrite <- Q; reflexivity|]. split; [discriminate|]. cbn [wallet] in WA |- *. rewrite WA. reflexivity.
Qed.
Lemma runF_ends es : forall p, okay (a_ui p) -> Forall g_ok (untimed es) -> Forall g_ends (untimed es) -> exists r, gRunF fma E T wst p es = Some r.
Proof.
  induction es as [|[[e t] w] es IH]; intros p O F N; cbn [gRunF]; [eexists; reflexivity|]. cbn [untimed map fst] in F, N. inversion F as [|? ? F1 F2]; subst. inversion N as [|? ? N1 N2]; subst. destruct e as [f s|i]; cbn [gStepF].
  - apply IH; [exact (edit_ok T wl f s (a_ui p) F1 O)|assumption|assumption].
  - assert (G : exists q, gFrameF fma E T wst t w i p = Some q).
    { destruct (run_ends E T wl EO HT HG HW SW [GFrame i] (a_ui p) O) as (q & Q); [constructor; [exact F1|constructor]|constructor; [exact N1|constructor]|].
      cbn [gRun gStep] in Q. unfold gFrame in Q. unfold gFrameF. destruct (gHandlers1 E T wst i (a_ui p)); [eexists; reflexivity|discriminate Q]. }
    destruct G as (q & G). rewrite G. destruct (frameF_eq t w i p q O F1 G) as (rd & _ & OK & _). destruct q as [[p1|]|]; [|eexists; reflexivity|eexists; reflexivity]. apply IH; [exact (OK _ eq_refl)|assumption|assumption].
Qed.
End EQ.

Lemma clock_same es es' : Forall2 same_timed es es' -> clock es' = g_clock es.
Proof.
  induction 1 as [|[[g t] w] [[e t'] w'] es es' (S & A & B) _ IH]; [reflexivity|]. cbn [fst snd] in *. subst t' w'. unfold clock, g_clock in *. cbn [flat_map]. rewrite IH. destruct g as [f s|i]; destruct e; try destruct f; try destruct S; reflexivity.
Qed.
Lemma untimed_same es es' : Forall2 same_timed es es' -> Forall2 same_event (untimed es) (untimed es').
Proof. induction 1 as [|g e es es' (S & _) _ IH]; constructor; assumption. Qed.
Lemma edit_screen H T wst u e u' : (forall i, e <> Frame i) -> step H T wst u e = Ret u' -> screen u' = screen u.
Proof. intros N. destruct e; cbn [step]; try (intros Q; injection Q as <-; reflexivity). exfalso. eapply N. reflexivity. Qed.
Lemma filmed_last H T wst u0 es u l : filmed H T wst u0 es u l -> forall l' x, l = l' ++ [x] -> pic x = screen u.
Proof.
  induction 1 as [|es u l e t w u' F IH N ST|es u l i t w u1 u' F IH Hh Fr]; intros l' x Q.
  - destruct l'; discriminate Q.
  - rewrite (edit_screen _ _ _ _ _ _ N ST). exact (IH _ _ Q).
  - apply app_inj_tail in Q. destruct Q as [_ <-]. reflexivity.
Qed.
