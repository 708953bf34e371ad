(** GoRegexpMain.v - MatchString of GoRegexp.v without one-pass program finds what the pattern describes (for C97). *)
From Verif Require Import Base BaseFacts GoStr GoStrLit Bip32 GoCodec GoRegexp SpecRegexp GoRegexpIn GoRegexpRun GoRegexpPike GoRegexpCode GoRegexpComp GoRegexpSimp.

Lemma from_boundary s i : from s 0 i <-> boundary s i.
Proof.
  split.
  - intros H. induction H as [|i c w H IH R]; [constructor|]. econstructor; eassumption.
  - intros H. induction H as [|i c w H IH R]; [constructor|]. econstructor; eassumption.
Qed.

(** In proofs; for bip32/path.go:22, 25, bip32/reg_ver_bytes.go:75. *)
Definition good (parsed : regexp) (R : Regexp) : Prop :=
  wf (re_prog R) /\ tgt (re_prog R) (re_start R) /\ (exists fuel, StartCond fuel (re_prog R) (re_start R) 0 = Ret (re_cond R)) /\
  (forall s i, (i <= length s)%nat -> acc (re_prog R) s (re_start R, i) <-> exists j, Den s parsed i j) /\
  (forall s i j, Den s parsed i j -> (i + re_min R <= j)%nat).
Lemma MustCompile_good parsed R : re_ok parsed -> MustCompile parsed = Ret R -> good parsed R.
Proof.
  intros Ok. destruct (Simplify_ok parsed Ok) as [Ok' Nr]. destruct (Compile_ok _ Ok' Nr) as (p & start & n & E & W & T & C & M & _).
  unfold MustCompile. cbv zeta. rewrite E. cbn [bind].
  destruct (StartCond (S (length p)) p start 0) as [cond|] eqn:Es; cbn [bind]; [|discriminate].
  destruct (compileOnePass p start) as [o|]; cbn [bind]; [|discriminate].
  assert (G : forall op pre e, good parsed (mkRe p start cond (minInputLen (Simplify parsed)) op pre e)).
  { intros op pre e. split; [exact W|]. split; [exact T|]. split; [exists (S (length p)); exact Es|]. split.
    - intros s i Li. cbn [re_prog re_start]. rewrite (code_acc p s _ _ _ i C M Li). split; intros (j & D); exists j; apply (Simplify_den s parsed Ok); exact D.
    - intros s i j D. cbn [re_min]. apply (minInputLen_ok s); [exact Ok'|]. apply Simplify_den; assumption. }
  destruct o as [op|].
  - destruct (onePassPrefix p start) as [[pre e]|]; cbn [bind]; [|discriminate]. intros Q. injection Q as <-. apply G.
  - destruct (get p start) as [i|]; cbn [bind]; [|discriminate].
    destruct (is_rune (Op i)), (Rune i) as [|? [|? ?]], (Op i); intros Q; try discriminate; injection Q as <-; apply G.
Qed.

(** one search of a position on, by either engine *)
Theorem doExecute_ok parsed R s pos L : good parsed R -> (pos <= length s)%nat -> L <> 1%nat ->
  exists o, doExecute R s pos L = Ret o /\ (o <> None <-> exists i j, from s pos i /\ Den s parsed i j).
Proof.
  intros (W & T & (fuel & Es) & A & Mi) Lp HL. unfold doExecute.
  assert (X : (exists i, from s pos i /\ acc (re_prog R) s (re_start R, i)) <-> exists i j, from s pos i /\ Den s parsed i j).
  { split.
    - intros (i & F & Ac). apply A in Ac; [|apply (from_in s pos i Lp F)]. destruct Ac as (j & D). exists i, j. tauto.
    - intros (i & j & F & D). exists i. split; [exact F|]. apply A; [apply (from_in s pos i Lp F)|]. exists j. exact D. }
  destruct (length s <? re_min R)%nat eqn:El.
  { apply Nat.ltb_lt in El. eexists. split; [reflexivity|]. split; [congruence|]. intros (i & j & F & D).
    pose proof (Mi s i j D). pose proof (den_range s _ _ _ D (from_in s pos i Lp F)). lia. }
  destruct (Z.of_nat (length s) <? maxBitStateLen (re_prog R)).
  - destruct (backtrack_ok (re_prog R) s W fuel (re_start R) (re_cond R) pos L Es T Lp HL) as (o & E & H). exists o. split; [exact E|]. rewrite H. exact X.
  - destruct (machine_ok (re_prog R) s W L HL (re_start R) (re_cond R) fuel Es T pos Lp) as (o & E & H). exists o. split; [exact E|]. rewrite H. exact X.
Qed.
Theorem MatchString_ok parsed R s : re_ok parsed -> MustCompile parsed = Ret R -> re_onepass R = None ->
  exists b, MatchString R s = Ret b /\ (b = true <-> exists i j, boundary s i /\ Den s parsed i j).
Proof.
  intros Ok E N. unfold MatchString. rewrite N.
  destruct (doExecute_ok parsed R s 0 0 (MustCompile_good _ _ Ok E) ltac:(lia) ltac:(discriminate)) as (o & Eo & H).
  rewrite Eo. cbn [bind]. eexists. split; [reflexivity|].
  assert (X : (exists i j, from s 0 i /\ Den s parsed i j) <-> exists i j, boundary s i /\ Den s parsed i j).
  { split; intros (i & j & F & D); exists i, j; (split; [apply from_boundary, F|exact D]). }
  rewrite <- X, <- H. destruct o; split; congruence.
Qed.
