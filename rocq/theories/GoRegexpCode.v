(** GoRegexpCode.v - proof that the compiler of GoRegexp.v is right: the runs of the compiled program are the texts described by
    the pattern (for C97). *)
From Verif Require Import Base BaseFacts GoStr GoStrLit Bip32 GoCodec GoRegexp SpecRegexp GoRegexpIn GoRegexpRun.

(** ** Code: the instructions from an entry to an exit carry out a pattern *)

(** In proofs; for bip32/path.go:22, 25, bip32/reg_ver_bytes.go:75. *)
Definition rune_inst (Q : Z -> Prop) (i : Inst) : Prop :=
  is_rune (Op i) = true /\ exists g, (forall c, MatchRune i c = Ret (g c)) /\ g (-1) = false /\ forall c, g c = true <-> Q c.
(** In proofs; for bip32/path.go:22, 25, bip32/reg_ver_bytes.go:75. *)
Inductive chain (P : list Inst) (f : bool) : list Z -> nat -> nat -> Prop :=
| ch_nil n : chain P f [] n n
| ch_cons r rs pc i n : nth_error P pc = Some i -> rune_inst (lit_rune f r) i -> chain P f rs (Out i) n -> chain P f (r :: rs) pc n.
(** In proofs; for bip32/path.go:22, 25, bip32/reg_ver_bytes.go:75. *)
Inductive Code (P : list Inst) : regexp -> nat -> nat -> Prop :=
| K_empty pc i : nth_error P pc = Some i -> Op i = InstNop -> Code P OpEmptyMatch pc (Out i)
| K_lit0 f pc i : nth_error P pc = Some i -> Op i = InstNop -> Code P (OpLiteral f []) pc (Out i)
| K_lit f rs pc n : chain P f rs pc n -> Code P (OpLiteral f rs) pc n
| K_class rs pc i : nth_error P pc = Some i -> rune_inst (in_class rs) i -> Code P (OpCharClass rs) pc (Out i)
| K_begin pc i : nth_error P pc = Some i -> Op i = InstEmptyWidth -> Arg i = EmptyBeginText -> Code P OpBeginText pc (Out i)
| K_end pc i : nth_error P pc = Some i -> Op i = InstEmptyWidth -> Arg i = EmptyEndText -> Code P OpEndText pc (Out i)
| K_cap k a pc i m i2 : nth_error P pc = Some i -> Op i = InstCapture -> Code P a (Out i) m -> nth_error P m = Some i2 -> Op i2 = InstCapture ->
    Code P (OpCapture k a) pc (Out i2)
| K_star a l i : nth_error P l = Some i -> Op i = InstAlt -> Code P a (Out i) l -> Code P (OpStar a) l (Arg i)
| K_starq a q i l i2 : nth_error P q = Some i -> Op i = InstAlt -> Code P a (Out i) l ->
    nth_error P l = Some i2 -> Op i2 = InstAlt -> Out i2 = Out i -> Arg i2 = Arg i -> Code P (OpStar a) q (Arg i)
| K_plus a x l i : Code P a x l -> nth_error P l = Some i -> Op i = InstAlt -> Out i = x -> Code P (OpPlus a) x (Arg i)
| K_quest a q i : nth_error P q = Some i -> Op i = InstAlt -> Code P a (Out i) (Arg i) -> Code P (OpQuest a) q (Arg i)
| K_cat a b pc m n : Code P a pc m -> Code P b m n -> Code P (OpConcat a b) pc n.

Section Meaning.
Variable P : list Inst.
Variable s : bytes.
Notation edge := (edge P s). Notation reach := (reach P s). Notation acc := (acc P s). Notation final := (final P).

Lemma reach_trans a b c : reach a b -> reach b c -> reach a c.
Proof. intros H. induction 1; [exact H|]. eapply r_step; [|eassumption]. auto. Qed.
Lemma reach_edge a b : edge a b -> reach a b.
Proof. intros. eapply r_step; [apply r_refl|assumption]. Qed.
Lemma rune_edge Q pc i pos c w : nth_error P pc = Some i -> rune_inst Q i -> rune_at s pos c w -> Q c -> edge (pc, pos) (Out i, pos + w)%nat.
Proof. intros Hi (Ho & g & Hg & _ & Hq) R HQ. apply (e_rune P s pc i pos c w Hi Ho R). rewrite Hg. f_equal. apply Hq. exact HQ. Qed.

(** every described text has a run *)
Lemma code_complete re i j : Den s re i j -> forall pc n, Code P re pc n -> reach (pc, i) (n, j).
Proof.
  induction 1 as [i|f i|f r rs c w i j R Lr D IH|rs c w i R Ic| | |k a i j D IH|a i|a i j k D1 IH1 D2 IH2|a i j k D1 IH1 D2 IH2|a i|a i j D IH|mx a i|mn mx a i j k D1 _ D2 _|a b i j k D1 IH1 D2 IH2];
    intros pc n C; inversion C; subst; clear C.
  - apply reach_edge, e_eps. eapply e_out; [eassumption|tauto].
  - apply reach_edge, e_eps. eapply e_out; [eassumption|tauto].
  - match goal with H : chain _ _ [] _ _ |- _ => inversion H; subst end. apply r_refl.
  - match goal with H : chain _ _ (_ :: _) _ _ |- _ => inversion H; subst end.
    eapply reach_trans; [apply reach_edge; eapply rune_edge; eassumption|]. apply IH. apply K_lit. assumption.
  - apply reach_edge. eapply rune_edge; eassumption.
  - apply reach_edge, e_eps. eapply e_empty; try eassumption. match goal with H : Arg _ = _ |- _ => rewrite H end.
    rewrite context_start, flag_op4. reflexivity.
  - apply reach_edge, e_eps. eapply e_empty; try eassumption. match goal with H : Arg _ = _ |- _ => rewrite H end.
    pose proof (context_r2_neg s (length s) (le_n _)) as X. destruct (context s (length s)) as [r1 r2]. rewrite flag_op8. cbn [snd] in X. apply Z.ltb_lt. apply X. reflexivity.
  - match goal with H1 : nth_error P pc = Some ?x, H2 : nth_error P ?m = Some ?y |- reach (pc, _) (Out ?y, _) =>
      apply (reach_trans _ (Out x, i)); [apply reach_edge, e_eps; eapply e_out; [exact H1|tauto]|];
      apply (reach_trans _ (m, j)); [apply IH; assumption|]; apply reach_edge, e_eps; eapply e_out; [exact H2|tauto] end.
  - apply reach_edge, e_eps. eapply e_arg; eassumption.
  - apply reach_edge, e_eps. eapply e_arg; eassumption.
  - match goal with H : nth_error P pc = Some ?x |- _ =>
      apply (reach_trans _ (Out x, i)); [apply reach_edge, e_eps; eapply e_out; [exact H|tauto]|];
      apply (reach_trans _ (pc, j)); [apply IH1; assumption|]; apply IH2; eapply K_star; eassumption end.
  - match goal with H : nth_error P pc = Some ?x, H2 : nth_error P ?l = Some ?y, H3 : Arg ?y = Arg ?x |- _ =>
      apply (reach_trans _ (Out x, i)); [apply reach_edge, e_eps; eapply e_out; [exact H|tauto]|];
      apply (reach_trans _ (l, j)); [apply IH1; assumption|]; apply IH2; rewrite <- H3; eapply K_star; try eassumption;
      match goal with H4 : Out y = Out x |- _ => rewrite H4; assumption end end.
  - match goal with H2 : nth_error P ?l = Some ?y |- reach (_, _) (Arg ?y, _) =>
      apply (reach_trans _ (l, j)); [apply IH1; assumption|]; apply IH2; eapply K_star; eassumption end.
  - apply reach_edge, e_eps. eapply e_arg; eassumption.
  - match goal with H : nth_error P pc = Some ?x |- _ =>
      apply (reach_trans _ (Out x, i)); [apply reach_edge, e_eps; eapply e_out; [exact H|tauto]|]; apply IH; assumption end.
  - match goal with H : Code P a _ ?m |- _ => apply (reach_trans _ (m, j)); [apply IH1; assumption|apply IH2; assumption] end.
Qed.

(** accepting runs with their length *)
(** In proofs; for bip32/path.go:22, 25, bip32/reg_ver_bytes.go:75. *)
Inductive accn : nat -> nat * nat -> Prop :=
| an_match c : final c -> accn 0 c
| an_step k c c' : edge c c' -> accn k c' -> accn (S k) c.
Lemma acc_accn c : acc c -> exists k, accn k c.
Proof. induction 1 as [c F|c c' E A [k IH]]; [exists O; apply an_match; exact F|]. exists (S k). eapply an_step; eassumption. Qed.
Lemma accn_acc k c : accn k c -> acc c.
Proof. induction 1; [apply a_match; assumption|eapply a_step; eassumption]. Qed.

Lemma accn_out k pc pos i : accn k (pc, pos) -> nth_error P pc = Some i -> Op i = InstNop \/ Op i = InstCapture ->
  exists k', (k' < k)%nat /\ accn k' (Out i, pos).
Proof.
  intros A Hi Ho. inversion A as [? (i' & Hi' & Ho')|k' ? c' E A']; subst. { cbn in Hi'. rewrite Hi in Hi'. injection Hi' as <-. destruct Ho; congruence. }
  exists k'. split; [lia|]. inversion E as [? ? ? He|? i' ? ? ? Hi' Ho']; subst.
  - inversion He as [? i' Hi' Ho'|? i' Hi' Ho'|? i' Hi' Ho']; subst; rewrite Hi in Hi'; injection Hi' as <-; [exact A'| |]; destruct Ho; congruence.
  - rewrite Hi in Hi'. injection Hi' as <-. destruct Ho as [X|X]; rewrite X in Ho'; discriminate.
Qed.
Lemma accn_alt k pc pos i : accn k (pc, pos) -> nth_error P pc = Some i -> Op i = InstAlt ->
  exists k', (k' < k)%nat /\ (accn k' (Out i, pos) \/ accn k' (Arg i, pos)).
Proof.
  intros A Hi Ho. inversion A as [? (i' & Hi' & Ho')|k' ? c' E A']; subst. { cbn in Hi'. congruence. }
  exists k'. split; [lia|]. inversion E as [? ? ? He|? i' ? ? ? Hi' Ho']; subst.
  - inversion He as [? i' Hi' Ho'|? i' Hi' Ho'|? i' Hi' Ho']; subst; rewrite Hi in Hi'; injection Hi' as <-; [left|right|]; congruence || exact A'.
  - rewrite Hi in Hi'. injection Hi' as <-. rewrite Ho in Ho'. discriminate.
Qed.
Lemma accn_empty k pc pos i : accn k (pc, pos) -> nth_error P pc = Some i -> Op i = InstEmptyWidth ->
  flag_match (context s pos) (Arg i) = true /\ exists k', (k' < k)%nat /\ accn k' (Out i, pos).
Proof.
  intros A Hi Ho. inversion A as [? (i' & Hi' & Ho')|k' ? c' E A']; subst. { cbn in Hi'. congruence. }
  inversion E as [? ? ? He|? i' ? ? ? Hi' Ho']; subst.
  - inversion He as [? i' Hi' Ho'|? i' Hi' Ho'|? i' Hi' Ho' Hf]; subst; rewrite Hi in Hi'; injection Hi' as <-.
    + destruct Ho' as [X|[X|X]]; congruence.
    + congruence.
    + split; [exact Hf|]. exists k'. split; [lia|exact A'].
  - rewrite Hi in Hi'. injection Hi' as <-. rewrite Ho in Ho'. discriminate.
Qed.
Lemma accn_rune Q k pc pos i : accn k (pc, pos) -> nth_error P pc = Some i -> rune_inst Q i ->
  exists c w k', rune_at s pos c w /\ Q c /\ (k' < k)%nat /\ accn k' (Out i, pos + w)%nat.
Proof.
  intros A Hi (Ho & g & Hg & _ & Hq). inversion A as [? (i' & Hi' & Ho')|k' ? c' E A']; subst. { cbn in Hi'. rewrite Hi in Hi'. injection Hi' as <-. rewrite Ho' in Ho. discriminate. }
  inversion E as [? ? ? He|? i' ? c w Hi' Ho' R Hm]; subst.
  - inversion He as [? i' Hi' Ho'|? i' Hi' Ho'|? i' Hi' Ho']; subst; rewrite Hi in Hi'; injection Hi' as <-.
    + destruct Ho' as [X|[X|X]]; rewrite X in Ho; discriminate.
    + rewrite Ho' in Ho. discriminate.
    + rewrite Ho' in Ho. discriminate.
  - rewrite Hi in Hi'. injection Hi' as <-. exists c, w, k'. split; [exact R|]. split; [apply Hq; rewrite Hg in Hm; congruence|]. split; [lia|exact A'].
Qed.

(** every accepting run starts with a described text *)
Lemma code_sound re : forall k pc n i, Code P re pc n -> accn k (pc, i) -> (i <= length s)%nat ->
  exists j k', Den s re i j /\ (k' <= k)%nat /\ accn k' (n, j) /\ (j <= length s)%nat.
Proof.
  induction re as [|f rs|rs| | |m a IHa|a IHa|a IHa|a IHa|mn mx a IHa|a IHa b IHb]; intros k pc n i C A Li.
  - inversion C; subst. destruct (accn_out _ _ _ _ A ltac:(eassumption) ltac:(tauto)) as (k' & Lk & A'). exists i, k'. repeat split; try assumption; [constructor|lia].
  - inversion C as [| ? ? ? Hi Ho|? ? ? ? Hc| | | | | | | | | ]; subst.
    + destruct (accn_out _ _ _ _ A Hi ltac:(tauto)) as (k' & Lk & A'). exists i, k'. repeat split; try assumption; [constructor|lia].
    + clear C. revert k pc i A Li Hc. induction rs as [|r rs IH]; intros k pc i A Li Hc; inversion Hc as [|? ? ? x ? Hx Hr Hc']; subst.
      * exists i, k. repeat split; try assumption; [constructor|lia].
      * destruct (accn_rune _ _ _ _ _ A Hx Hr) as (c & w & k1 & R & Q & L1 & A1). pose proof (rune_at_facts _ _ _ _ R) as [[_ W2] _].
        destruct (IH _ _ _ A1 W2 Hc') as (j & k' & D & L' & A' & Lj). exists j, k'. repeat split; try assumption; [econstructor; eassumption|lia].
  - inversion C; subst. destruct (accn_rune _ _ _ _ _ A ltac:(eassumption) ltac:(eassumption)) as (c & w & k1 & R & Q & L1 & A1).
    pose proof (rune_at_facts _ _ _ _ R) as [[_ W2] _]. exists (i + w)%nat, k1. repeat split; try assumption; [econstructor; eassumption|lia].
  - inversion C; subst. destruct (accn_empty _ _ _ _ A ltac:(eassumption) ltac:(eassumption)) as (Hf & k' & Lk & A').
    assert (i = O). { pose proof (context_r1_neg s i Li) as X. match goal with H : Arg _ = _ |- _ => rewrite H in Hf end.
      destruct (context s i) as [r1 r2]. rewrite flag_op4 in Hf. apply X. cbn [fst]. lia. }
    subst i. exists O, k'. repeat split; try assumption; [constructor|lia].
  - inversion C; subst. destruct (accn_empty _ _ _ _ A ltac:(eassumption) ltac:(eassumption)) as (Hf & k' & Lk & A').
    assert (i = length s). { pose proof (context_r2_neg s i Li) as X. match goal with H : Arg _ = _ |- _ => rewrite H in Hf end.
      destruct (context s i) as [r1 r2]. rewrite flag_op8 in Hf. apply X. cbn [snd]. lia. }
    subst i. exists (length s), k'. repeat split; try assumption; [constructor|lia].
  - inversion C as [| | | | | |? ? ? x mm y Hx Ox Ca Hy Oy| | | | | ]; subst.
    destruct (accn_out _ _ _ _ A Hx ltac:(tauto)) as (k1 & L1 & A1). destruct (IHa _ _ _ _ Ca A1 Li) as (j & k2 & D & L2 & A2 & Lj).
    destruct (accn_out _ _ _ _ A2 Hy ltac:(tauto)) as (k3 & L3 & A3). exists j, k3. repeat split; try assumption; [constructor; exact D|lia].
  - (* star *)
    assert (Loop : forall k l x i, nth_error P l = Some x -> Op x = InstAlt -> Code P a (Out x) l -> accn k (l, i) -> (i <= length s)%nat ->
              exists j k', Den s (OpStar a) i j /\ (k' <= k)%nat /\ accn k' (Arg x, j) /\ (j <= length s)%nat).
    { clear k pc n i C A Li. induction k as [k IHk] using lt_wf_ind. intros l x i Hx Ox Ca A Li.
      destruct (accn_alt _ _ _ _ A Hx Ox) as (k1 & L1 & [A1|A1]).
      - destruct (IHa _ _ _ _ Ca A1 Li) as (j & k2 & D & L2 & A2 & Lj).
        destruct (IHk k2 ltac:(lia) l x j Hx Ox Ca A2 Lj) as (j' & k3 & D' & L3 & A3 & Lj'). exists j', k3. repeat split; try assumption; [econstructor; eassumption|lia].
      - exists i, k1. repeat split; try assumption; [constructor|lia]. }
    inversion C as [| | | | | | |? ? x Hx Ox Ca|? ? x l y Hx Ox Ca Hy Oy E1 E2| | | ]; subst.
    + exact (Loop _ _ _ _ Hx Ox Ca A Li).
    + destruct (accn_alt _ _ _ _ A Hx Ox) as (k1 & L1 & [A1|A1]).
      * destruct (IHa _ _ _ _ Ca A1 Li) as (j & k2 & D & L2 & A2 & Lj). rewrite <- E1 in Ca.
        destruct (Loop _ _ _ _ Hy Oy Ca A2 Lj) as (j' & k3 & D' & L3 & A3 & Lj'). rewrite E2 in A3. exists j', k3. repeat split; try assumption; [econstructor; eassumption|lia].
      * exists i, k1. repeat split; try assumption; [constructor|lia].
  - (* plus *)
    assert (Loop : forall k l x i, nth_error P l = Some x -> Op x = InstAlt -> Code P a (Out x) l -> accn k (l, i) -> (i <= length s)%nat ->
              exists j k', Den s (OpStar a) i j /\ (k' <= k)%nat /\ accn k' (Arg x, j) /\ (j <= length s)%nat).
    { clear k pc n i C A Li. induction k as [k IHk] using lt_wf_ind. intros l x i Hx Ox Ca A Li.
      destruct (accn_alt _ _ _ _ A Hx Ox) as (k1 & L1 & [A1|A1]).
      - destruct (IHa _ _ _ _ Ca A1 Li) as (j & k2 & D & L2 & A2 & Lj).
        destruct (IHk k2 ltac:(lia) l x j Hx Ox Ca A2 Lj) as (j' & k3 & D' & L3 & A3 & Lj'). exists j', k3. repeat split; try assumption; [econstructor; eassumption|lia].
      - exists i, k1. repeat split; try assumption; [constructor|lia]. }
    inversion C as [| | | | | | | | |? ? l x Ca Hx Ox E1| | ]; subst.
    destruct (IHa _ _ _ _ Ca A Li) as (j & k2 & D & L2 & A2 & Lj).
    destruct (Loop _ _ _ _ Hx Ox Ca A2 Lj) as (j' & k3 & D' & L3 & A3 & Lj'). exists j', k3. repeat split; try assumption; [econstructor; eassumption|lia].
  - inversion C as [| | | | | | | | | |? ? x Hx Ox Ca| ]; subst.
    destruct (accn_alt _ _ _ _ A Hx Ox) as (k1 & L1 & [A1|A1]).
    + destruct (IHa _ _ _ _ Ca A1 Li) as (j & k2 & D & L2 & A2 & Lj). exists j, k2. repeat split; try assumption; [constructor; exact D|lia].
    + exists i, k1. repeat split; try assumption; [constructor|lia].
  - inversion C.
  - inversion C as [| | | | | | | | | | |? ? ? m ? Ca Cb]; subst.
    destruct (IHa _ _ _ _ Ca A Li) as (j & k2 & D & L2 & A2 & Lj). destruct (IHb _ _ _ _ Cb A2 Lj) as (j' & k3 & D' & L3 & A3 & Lj').
    exists j', k3. repeat split; try assumption; [econstructor; eassumption|lia].
Qed.

(** The runs of a program that carries out [re] and then matches. *)
Theorem code_acc re pc n i : Code P re pc n -> (exists x, nth_error P n = Some x /\ Op x = InstMatch) -> (i <= length s)%nat -> acc (pc, i) <-> exists j, Den s re i j.
Proof.
  intros C (x & Hx & Ox) Li. split.
  - intros A. destruct (acc_accn _ A) as [k Ak]. destruct (code_sound re _ _ _ _ C Ak Li) as (j & _ & D & _). exists j. exact D.
  - intros (j & D). apply (reach_acc _ _ _ _ (code_complete _ _ _ D _ _ C)). apply a_match. exists x. split; assumption.
Qed.
End Meaning.
