(** GoRegexpOne.v - the one-pass engine of GoRegexp.v on the program of bip32/reg_ver_bytes.go:75 (for C97). *)
From Verif Require Import Base BaseFacts GoStr GoStrLit Bip32 GoCodec Rx RxFacts Bip32Path Bip32Reg
  GoRegexp SpecRegexp GoRegexpIn GoRegexpRun GoRegexpPike GoRegexpCode GoRegexpComp GoRegexpSimp GoRegexpMain GoRegexpLink.

(** ** Runs, one instruction at a time *)
Section Runs.
Variable P : list Inst.
Variable s : bytes.
Lemma acc_final pc pos i : nth_error P pc = Some i -> Op i = InstMatch -> acc P s (pc, pos).
Proof. intros H O. apply a_match. exists i. auto. Qed.
Lemma acc_alt pc pos i : nth_error P pc = Some i -> Op i = InstAlt -> acc P s (pc, pos) <-> acc P s (Out i, pos) \/ acc P s (Arg i, pos).
Proof.
  intros H O. split.
  - intros A. inversion A as [? (x & Hx & Ox)|? c' E A']; subst; [cbn in Hx; congruence|].
    inversion E as [? pc' ? Ep|? x ? c w Hx Ox]; subst.
    + inversion Ep as [? x Hx Ox|? x Hx Ox|? x Hx Ox]; subst; replace x with i in * by congruence; [left; exact A'|right; exact A'|congruence].
    + replace x with i in * by congruence. rewrite O in Ox. discriminate.
  - intros [A|A]; (eapply a_step; [|exact A]); apply e_eps; [eapply e_out; [exact H|tauto]|eapply e_arg; eassumption].
Qed.
Lemma acc_empty pc pos i : nth_error P pc = Some i -> Op i = InstEmptyWidth -> acc P s (pc, pos) <-> flag_match (context s pos) (Arg i) = true /\ acc P s (Out i, pos).
Proof.
  intros H O. split.
  - intros A. inversion A as [? (x & Hx & Ox)|? c' E A']; subst; [cbn in Hx; congruence|].
    inversion E as [? pc' ? Ep|? x ? c w Hx Ox]; subst.
    + inversion Ep as [? x Hx Ox|? x Hx Ox|? x Hx Ox Fm]; subst; replace x with i in * by congruence; [rewrite O in Ox; destruct Ox as [Q|[Q|Q]]; discriminate|congruence|].
      split; [exact Fm|exact A'].
    + replace x with i in * by congruence. rewrite O in Ox. discriminate.
  - intros [F A]. eapply a_step; [|exact A]. apply e_eps. eapply e_empty; eassumption.
Qed.
Lemma acc_rune pc pos i : nth_error P pc = Some i -> is_rune (Op i) = true ->
  acc P s (pc, pos) <-> exists c w, rune_at s pos c w /\ MatchRune i c = Ret true /\ acc P s (Out i, pos + w)%nat.
Proof.
  intros H O. split.
  - intros A. inversion A as [? (x & Hx & Ox)|? c' E A']; subst. { cbn in Hx. replace x with i in * by congruence. rewrite Ox in O. discriminate. }
    inversion E as [? pc' ? Ep|? x ? c w Hx Ox Hr Hm]; subst.
    + inversion Ep as [? x Hx Ox|? x Hx Ox|? x Hx Ox]; subst; replace x with i in * by congruence; exfalso; [destruct Ox as [Ox|[Ox|Ox]]| |]; rewrite Ox in O; discriminate.
    + replace x with i in * by congruence. exists c, w. auto.
  - intros (c & w & R & M & A). eapply a_step; [|exact A]. eapply e_rune; eassumption.
Qed.
Lemma acc_fail pc pos i : nth_error P pc = Some i -> Op i = InstFail -> ~ acc P s (pc, pos).
Proof.
  intros H O A. inversion A as [? (x & Hx & Ox)|? c' E A']; subst; [cbn in Hx; congruence|].
  inversion E as [? pc' ? Ep|? x ? c w Hx Ox]; subst.
  - inversion Ep as [? x Hx Ox|? x Hx Ox|? x Hx Ox]; subst; replace x with i in * by congruence; [destruct Ox as [Ox|[Ox|Ox]]| |]; congruence.
  - replace x with i in * by congruence. rewrite O in Ox. discriminate.
Qed.
End Runs.

(** ** Programs whose Alts choose between two disjoint ranges *)
(** In proofs; for bip32/path.go:22, 25, bip32/reg_ver_bytes.go:75. *)
Definition range_of (i : Inst) : option (Z * Z) :=
  match Op i, Rune i, Arg i with
  | InstRune1, [r], _ => Some (r, r)
  | InstRune, [lo; hi], _ => Some (lo, hi)
  | _, _, _ => None
  end.
Lemma range_match i lo hi c : range_of i = Some (lo, hi) -> is_rune (Op i) = true /\ MatchRune i c = Ret ((lo <=? c) && (c <=? hi)).
Proof.
  unfold range_of, MatchRune, MatchRunePos. destruct (Op i) eqn:O; try discriminate.
  - destruct (Rune i) as [|a [|b [|? ?]]]; try discriminate. intros E. injection E as <- <-. split; [reflexivity|]. cbn [length get nth_error bind]. destruct ((a <=? c) && (c <=? b)); reflexivity.
  - destruct (Rune i) as [|a [|? ?]]; try discriminate. intros E. injection E as <- <-. split; [reflexivity|]. cbn [get nth_error bind]. f_equal. lia.
Qed.
(** In proofs; for bip32/path.go:22, 25, bip32/reg_ver_bytes.go:75. *)
Definition quiet (P : list Inst) (pc : nat) : bool :=
  match nth_error P pc with Some i => match Op i with InstRune | InstRune1 | InstMatch | InstFail => true | _ => false end | None => false end.
(** In proofs; for bip32/path.go:22, 25, bip32/reg_ver_bytes.go:75. *)
Definition nat_list_eqb (a b : list nat) : bool := if list_eq_dec Nat.eq_dec a b then true else false.
(** In proofs; for bip32/path.go:22, 25, bip32/reg_ver_bytes.go:75. *)
Definition Z_list_eqb (a b : list Z) : bool := if list_eq_dec Z.eq_dec a b then true else false.
(** In proofs; for bip32/path.go:22, 25, bip32/reg_ver_bytes.go:75. *)
Definition fits1 (P : list Inst) (i : Inst) (o : oInst) : bool :=
  let j := o_inst o in
  (Out i =? Out j)%nat && (Arg i =? Arg j)%nat &&
  match Op i, Op j with
  | InstFail, InstFail | InstMatch, InstMatch => true
  | InstEmptyWidth, InstEmptyWidth => quiet P (Out i)
  | InstRune, InstRune | InstRune1, InstRune1 => Z_list_eqb (Rune i) (Rune j) && match range_of i with Some (lo, _) => 0 <=? lo | None => false end
  | InstAlt, InstAlt =>
    match nth_error P (Out i), nth_error P (Arg i) with
    | Some a, Some b =>
      match range_of a, range_of b with
      | Some (lo1, hi1), Some (lo2, hi2) => ((lo2 <=? hi2) && (hi2 <? lo1)) && Z_list_eqb (Rune j) [lo2; hi2; lo1; hi1] && nat_list_eqb (o_next o) [Arg i; Out i] &&
          match nth_error P 0 with Some z => match Op z with InstFail => true | _ => false end | None => false end
      | _, _ => false
      end
    | _, _ => false
    end
  | _, _ => false
  end.
(** In proofs; for bip32/path.go:22, 25, bip32/reg_ver_bytes.go:75. *)
Fixpoint fits (P : list Inst) (l : list Inst) (op : list oInst) : bool :=
  match l, op with
  | [], [] => true
  | i :: l, o :: op => fits1 P i o && fits P l op
  | _, _ => false
  end.
Lemma fits_nth P : forall l op pc i, fits P l op = true -> nth_error l pc = Some i -> exists o, nth_error op pc = Some o /\ fits1 P i o = true.
Proof.
  induction l as [|x l IH]; intros [|o op] [|pc] i F H; try discriminate; cbn [fits] in F; apply Bool.andb_true_iff in F; destruct F as [F1 F2].
  - injection H as <-. exists o. auto.
  - apply (IH op pc i F2 H).
Qed.
Lemma Z_list_eqb_eq a b : Z_list_eqb a b = true -> a = b.
Proof. unfold Z_list_eqb. destruct (list_eq_dec Z.eq_dec a b); [auto|discriminate]. Qed.
Lemma nat_list_eqb_eq a b : nat_list_eqb a b = true -> a = b.
Proof. unfold nat_list_eqb. destruct (list_eq_dec Nat.eq_dec a b); [auto|discriminate]. Qed.

Section Loop.
Variable P : list Inst.
Variable op : list oInst.
Variable s : bytes.
Hypothesis F : fits P P op = true.
Hypothesis W : wf P.
(** In proofs; for bip32/path.go:22, 25, bip32/reg_ver_bytes.go:75. *)
Definition rank (pc : nat) : nat := if quiet P pc then 0 else 1.
Lemma rank_le pc : (rank pc <= 1)%nat.
Proof. clear F W. unfold rank. destruct (quiet P pc); lia. Qed.
Lemma match_runes i j c : Op i = Op j -> Rune i = Rune j -> Arg i = Arg j -> MatchRune i c = MatchRune j c.
Proof. intros A B C. unfold MatchRune. rewrite A, B, C. reflexivity. Qed.

Lemma onepass_ok : forall fuel pc pos r width r1 width1 flag,
  (pos <= length s)%nat -> (pc < length P)%nat -> step s pos = (r, width) -> step s (pos + width) = (r1, width1) ->
  (forall o, flag_match flag o = flag_match (context s pos) o) -> (2 * (length s - pos) + rank pc < fuel)%nat ->
  exists b, onepass_loop fuel op s pc pos r width r1 width1 flag = Ret b /\ (b = true <-> acc P s (pc, pos)).
Proof.
  induction fuel as [|fuel IH]; intros pc pos r width r1 width1 flag Lp Lpc E0 E1 Hf Hfu; [lia|].
  destruct (nth_error P pc) as [i|] eqn:Hi; [|apply nth_error_None in Hi; lia].
  destruct (fits_nth P P op pc i F Hi) as (o & Ho & Fo). cbn [onepass_loop]. rewrite (get_some _ _ _ Ho). cbn [bind].
  unfold fits1 in Fo. apply Bool.andb_true_iff in Fo. destruct Fo as [Fo Fop]. apply Bool.andb_true_iff in Fo. destruct Fo as [Fo Fa]. apply Nat.eqb_eq in Fo, Fa.
  destruct (W pc i Hi) as (_ & T & _).
  assert (Inb : forall x, tgt P x -> (x < length P)%nat). { intros x (_ & j & Hj & _). apply nth_error_Some. congruence. }
  assert (Adv : is_rune (Op i) = true -> match range_of i with Some (lo, _) => 0 <=? lo | None => false end = true -> Op i = Op (o_inst o) -> Rune i = Rune (o_inst o) ->
    exists b, (let! ok := MatchRune (o_inst o) r in
      if ok then if (width =? 0)%nat then Ret false
        else let '(r2, width2) := if r1 =? endOfText then (r1, width1) else step s (pos + width + width1) in
             onepass_loop fuel op s (Out (o_inst o)) (pos + width) r1 width1 r2 width2 (r, r1)
      else Ret false) = Ret b /\ (b = true <-> acc P s (pc, pos))).
  { intros Hr Hg Oo Ro. destruct (range_of i) as [[lo hi]|] eqn:Rg; [|discriminate]. apply Z.leb_le in Hg.
    destruct (range_match i lo hi r Rg) as (_ & Mr). rewrite <- (match_runes i (o_inst o) r Oo Ro Fa), Mr. cbn [bind].
    pose proof (acc_rune P s pc pos i Hi Hr) as Ac.
    destruct (step_cases s pos) as [(c & w & Ec & Rc)|(Le & Ec)]; rewrite E0 in Ec; injection Ec as -> ->.
    - destruct (rune_at_facts _ _ _ _ Rc) as ((W1 & W2) & C0).
      destruct ((lo <=? c) && (c <=? hi)) eqn:Em.
      + replace (w =? 0)%nat with false by (symmetry; apply Nat.eqb_neq; lia).
        assert (E2 : (if r1 =? endOfText then (r1, width1) else step s (pos + w + width1)) = step s (pos + w + width1)).
        { destruct (step_cases s (pos + w)) as [(c' & w' & Ec' & Rc')|(Le & Ec')]; rewrite E1 in Ec'; injection Ec' as -> ->.
          - destruct (rune_at_facts _ _ _ _ Rc') as (_ & C0'). replace (c' =? endOfText) with false by (symmetry; apply Z.eqb_neq; unfold endOfText; lia). reflexivity.
          - cbn [Z.eqb]. change (-1 =? endOfText) with true. cbv iota. rewrite step_end by lia. reflexivity. }
        rewrite E2. destruct (step s (pos + w + width1)) as [r2 width2] eqn:E3. rewrite <- Fo.
        destruct (IH (Out i) (pos + w)%nat r1 width1 r2 width2 (c, r1)) as (b & Eb & Hb).
        { lia. } { apply Inb. destruct (Op i); try discriminate; exact T. } { exact E1. } { exact E3. }
        { intros q. destruct (context_next s pos c w Rc) as (X1 & X2). destruct (context s (pos + w)) as [d1 d2]. cbn [fst snd] in *. apply flag_eqv; [exact X1|]. rewrite X2, E1. left. reflexivity. }
        { pose proof (rank_le (Out i)). lia. }
        exists b. split; [exact Eb|]. rewrite Hb, Ac. split.
        * intros A. exists c, w. split; [exact Rc|]. split; [rewrite Mr; reflexivity|exact A].
        * intros (c' & w' & Rc' & _ & A). destruct Rc as [_ Q], Rc' as [_ Q']. rewrite Q in Q'. injection Q' as <- <-. exact A.
      + exists false. split; [reflexivity|]. split; [discriminate|]. rewrite Ac. intros (c' & w' & Rc' & M & _). destruct Rc as [_ Q], Rc' as [_ Q']. rewrite Q in Q'. injection Q' as <- <-.
        rewrite Mr in M. discriminate.
    - exists false. split; [destruct ((lo <=? -1) && (-1 <=? hi)); reflexivity|]. split; [discriminate|]. rewrite Ac. intros (c' & w' & Rc' & _). destruct Rc' as [Q _]. lia. }
  destruct (Op i) eqn:Oi; destruct (Op (o_inst o)) eqn:Oj; try discriminate.
  - (* Alt *)
    destruct (nth_error P (Out i)) as [a|] eqn:Ha; [|discriminate]. destruct (nth_error P (Arg i)) as [b|] eqn:Hb; [|discriminate].
    destruct (range_of a) as [[lo1 hi1]|] eqn:Ra; [|discriminate]. destruct (range_of b) as [[lo2 hi2]|] eqn:Rb; [|discriminate].
    apply Bool.andb_true_iff in Fop. destruct Fop as [Fop F0]. apply Bool.andb_true_iff in Fop. destruct Fop as [Fop Fn]. apply Bool.andb_true_iff in Fop. destruct Fop as [Fd Fr].
    apply Bool.andb_true_iff in Fd. destruct Fd as [Fe Fd]. apply Z.leb_le in Fe. apply Z.ltb_lt in Fd. apply Z_list_eqb_eq in Fr. apply nat_list_eqb_eq in Fn.
    destruct (range_match a lo1 hi1 r Ra) as (Ia & Ma). destruct (range_match b lo2 hi2 r Rb) as (Ib & Mb).
    pose proof (acc_alt P s pc pos i Hi Oi) as Ac. pose proof (acc_rune P s (Out i) pos a Ha Ia) as Aa. pose proof (acc_rune P s (Arg i) pos b Hb Ib) as Ab.
    assert (Rk : rank pc = 1%nat) by (unfold rank, quiet; rewrite Hi, Oi; reflexivity).
    assert (Ra0 : rank (Out i) = 0%nat) by (unfold rank, quiet; rewrite Ha; destruct (Op a); try discriminate; reflexivity).
    assert (Rb0 : rank (Arg i) = 0%nat) by (unfold rank, quiet; rewrite Hb; destruct (Op b); try discriminate; reflexivity).
    assert (Here : forall c w, rune_at s pos c w -> c = r). { intros c w Rc. apply rune_at_step in Rc. destruct Rc as [_ Q]. congruence. }
    unfold onePassNext, MatchRunePos. rewrite Fr, Fn. cbn [length bind pairs_pos].
    destruct (Z.ltb_spec r lo2) as [L2|L2].
    + (* nothing *)
      rewrite Oj. destruct fuel as [|fuel]; [lia|]. cbn [bind onepass_loop].
      destruct (nth_error P 0) as [z|] eqn:Hz; [|discriminate]. destruct (Op z) eqn:Oz; try discriminate.
      destruct (fits_nth P P op 0 z F Hz) as (oz & Hoz & Foz). rewrite (get_some _ _ _ Hoz). cbn [bind].
      unfold fits1 in Foz. rewrite Oz in Foz. apply Bool.andb_true_iff in Foz. destruct Foz as [_ Foz]. destruct (Op (o_inst oz)); try discriminate.
      exists false. split; [reflexivity|]. split; [discriminate|]. rewrite Ac, Aa, Ab.
      intros [(c & w & Rc & M & _)|(c & w & Rc & M & _)]; apply Here in Rc; subst c; [rewrite Ma in M|rewrite Mb in M]; injection M as M; lia.
    + destruct (Z.leb_spec r hi2) as [H2|H2].
      * cbn [get nth_error bind]. destruct (IH (Arg i) pos r width r1 width1 flag) as (x & Ex & Hx); try assumption; [apply Inb; tauto|lia|].
        exists x. split; [exact Ex|]. rewrite Hx, Ac. split; [tauto|]. intros [A|A]; [|exact A]. apply Aa in A. destruct A as (c & w & Rc & M & _). apply Here in Rc. subst c. rewrite Ma in M. injection M as M. lia.
      * destruct (Z.ltb_spec r lo1) as [L1|L1]; [|destruct (Z.leb_spec r hi1) as [H1|H1]].
        -- (* between *)
           rewrite Oj. destruct fuel as [|fuel]; [lia|]. cbn [bind onepass_loop].
           destruct (nth_error P 0) as [z|] eqn:Hz; [|discriminate]. destruct (Op z) eqn:Oz; try discriminate.
           destruct (fits_nth P P op 0 z F Hz) as (oz & Hoz & Foz). rewrite (get_some _ _ _ Hoz). cbn [bind].
           unfold fits1 in Foz. rewrite Oz in Foz. apply Bool.andb_true_iff in Foz. destruct Foz as [_ Foz]. destruct (Op (o_inst oz)); try discriminate.
           exists false. split; [reflexivity|]. split; [discriminate|]. rewrite Ac, Aa, Ab.
           intros [(c & w & Rc & M & _)|(c & w & Rc & M & _)]; apply Here in Rc; subst c; [rewrite Ma in M|rewrite Mb in M]; injection M as M; lia.
        -- cbn [get nth_error bind]. destruct (IH (Out i) pos r width r1 width1 flag) as (x & Ex & Hx); try assumption; [apply Inb; tauto|lia|].
           exists x. split; [exact Ex|]. rewrite Hx, Ac. split; [tauto|]. intros [A|A]; [exact A|]. apply Ab in A. destruct A as (c & w & Rc & M & _). apply Here in Rc. subst c. rewrite Mb in M. injection M as M. lia.
        -- rewrite Oj. destruct fuel as [|fuel]; [lia|]. cbn [bind onepass_loop].
           destruct (nth_error P 0) as [z|] eqn:Hz; [|discriminate]. destruct (Op z) eqn:Oz; try discriminate.
           destruct (fits_nth P P op 0 z F Hz) as (oz & Hoz & Foz). rewrite (get_some _ _ _ Hoz). cbn [bind].
           unfold fits1 in Foz. rewrite Oz in Foz. apply Bool.andb_true_iff in Foz. destruct Foz as [_ Foz]. destruct (Op (o_inst oz)); try discriminate.
           exists false. split; [reflexivity|]. split; [discriminate|]. rewrite Ac, Aa, Ab.
           intros [(c & w & Rc & M & _)|(c & w & Rc & M & _)]; apply Here in Rc; subst c; [rewrite Ma in M|rewrite Mb in M]; injection M as M; lia.
  - (* empty width *)
    rewrite Hf, <- Fa, <- Fo. pose proof (acc_empty P s pc pos i Hi Oi) as Ac.
    assert (Rk : rank pc = 1%nat) by (unfold rank, quiet; rewrite Hi, Oi; reflexivity).
    assert (R0 : rank (Out i) = 0%nat) by (unfold rank; rewrite Fop; reflexivity).
    destruct (flag_match (context s pos) (Arg i)).
    + destruct (IH (Out i) pos r width r1 width1 flag) as (x & Ex & Hx); try assumption; [apply Inb; exact T|lia|]. exists x. split; [exact Ex|]. rewrite Hx, Ac. tauto.
    + exists false. split; [reflexivity|]. split; [discriminate|]. rewrite Ac. intros [Q _]. discriminate.
  - exists true. split; [reflexivity|]. split; [|reflexivity]. intros _. apply (acc_final P s pc pos i); assumption.
  - exists false. split; [reflexivity|]. split; [discriminate|]. intros A. exfalso. exact (acc_fail P s pc pos i Hi Oi A).
  - apply Bool.andb_true_iff in Fop. destruct Fop as [Fr Fg]. apply Adv; [reflexivity|exact Fg|reflexivity|apply Z_list_eqb_eq; exact Fr].
  - apply Bool.andb_true_iff in Fop. destruct Fop as [Fr Fg]. apply Adv; [reflexivity|exact Fg|reflexivity|apply Z_list_eqb_eq; exact Fr].
Qed.
End Loop.

(** ** The pattern of version bytes *)
(** In proofs; for bip32/path.go:22, 25, bip32/reg_ver_bytes.go:75. *)
Definition version_R : Regexp := Eval vm_compute in match MustCompile version_re with Ret r => r | Panic => mkRe [] 0 0 0 None [] 0 end.
Lemma version_compiles : MustCompile version_re = Ret version_R.
Proof. vm_compute. reflexivity. Qed.
(** In proofs; for bip32/path.go:22, 25, bip32/reg_ver_bytes.go:75. *)
Definition version_op : list oInst := Eval vm_compute in match re_onepass version_R with Some o => o | None => [] end.
Lemma version_onepass : re_onepass version_R = Some version_op /\ fits (re_prog version_R) (re_prog version_R) version_op = true /\
  re_start version_R = 1%nat /\ re_cond version_R = 4%nat /\ re_prefix version_R = B "m/" /\ re_prefixEnd version_R = 19%nat /\ length (re_prog version_R) = 41%nat /\ length version_op = 41%nat /\
  nth_error (re_prog version_R) 1 = Some (mkInst InstEmptyWidth 2 4 []) /\ nth_error (re_prog version_R) 2 = Some (mkInst InstRune1 3 0 [109]) /\
  nth_error (re_prog version_R) 3 = Some (mkInst InstRune1 19 0 [47]) /\ option_map (fun o => Arg (o_inst o)) (nth_error version_op 1) = Some 4%nat.
Proof. vm_compute. repeat split. Qed.
Lemma rune1_acc P s pc pos n x b : nth_error P pc = Some (mkInst InstRune1 n 0 [x]) -> x = Zb b -> Zb b < 128 ->
  acc P s (pc, pos) <-> nth_error s pos = Some b /\ acc P s (n, pos + 1)%nat.
Proof.
  intros H -> Hb. rewrite (acc_rune P s pc pos _ H eq_refl). unfold MatchRune. cbn [Op Rune Out get nth_error bind]. split.
  - intros (c & w & R & M & A). injection M as M. apply Z.eqb_eq in M. subst c. destruct (rune_ascii s pos _ w R Hb) as (-> & b' & Nb & E). apply Zb_inj in E. subst b'. auto.
  - intros (N & A). exists (Zb b), 1%nat. split; [apply ascii_rune; assumption|]. rewrite Z.eqb_refl. auto.
Qed.
Theorem GoVersionMatch_ok s : GoVersionMatch s = Ret (rx_match hd_rx s).
Proof.
  unfold GoVersionMatch. rewrite version_compiles. cbn [bind].
  destruct (MustCompile_good version_re version_R version_re_ok version_compiles) as (W & T & _ & A & Mi).
  destruct version_onepass as (O & Fi & St & Co & Pr & Pe & Ln & Lo & N1 & N2 & N3 & Na).
  unfold MatchString. rewrite O. rewrite St in *. rewrite Co, Pr, Pe. set (P := re_prog version_R) in *. clearbody P.
  assert (Sem : rx_match hd_rx s = true <-> acc P s (1%nat, 0%nat)).
  { rewrite rx_match_spec, (A s 0%nat ltac:(lia)), <- (den_anchored version_body hd_rx s version_body_rel). split.
    - intros (i & j & _ & D). apply version_re_body in D. assert (i = 0%nat) as ->; [|eauto]. unfold version_re in D.
      repeat match goal with D : Den s (OpConcat _ _) _ _ |- _ => apply den_cat in D; destruct D as (? & D & _) end. inversion D. reflexivity.
    - intros (j & D). exists 0%nat, j. split; [constructor|]. apply version_re_body. exact D. }
  destruct (length s <? re_min version_R)%nat eqn:El.
  { apply Nat.ltb_lt in El. f_equal. apply iff_bool. rewrite Sem, (A s 0%nat ltac:(lia)). split; [discriminate|]. intros (j & D).
    pose proof (Mi s _ _ D). pose proof (den_range s _ _ _ D ltac:(lia)). lia. }
  clear El. assert (Goal1 : exists b, doOnePass version_op 1 4 (B "m/") 19 s = Ret b /\ (b = true <-> acc P s (1%nat, 0%nat))).
  2:{ destruct Goal1 as (b & -> & Hb). f_equal. apply iff_bool. rewrite Hb, Sem. tauto. }
  assert (Step : acc P s (1%nat, 0%nat) <-> (nth_error s 0 = Some x6d /\ nth_error s 1 = Some x2f) /\ acc P s (19%nat, 2%nat)).
  { rewrite (acc_empty P s 1 0 _ N1 eq_refl), context_start, flag_op4. cbn [Out].
    rewrite (rune1_acc P s 2 0 3 109 x6d N2 eq_refl eq_refl), (rune1_acc P s 3 _ 19 47 x2f N3 eq_refl eq_refl). cbn [Nat.add]. change (-1 <? 0) with true. tauto. }
  unfold doOnePass. change (4 =? 255)%nat with false. cbv iota zeta.
  destruct (step s 0) as [r w]. destruct (if r =? endOfText then (endOfText, 0%nat) else step s w) as [r1 w1].
  destruct (nth_error version_op 1) as [o1|] eqn:Eo; [|discriminate]. rewrite (get_some _ _ _ Eo). cbn [bind option_map] in *. injection Na as Na. rewrite Na, flag_op4.
  change (-1 <? 0) with true. change (B "m/") with [x6d; x2f]. cbv iota. cbn [length].
  destruct (bytes_eqb (firstn 2 s) [x6d; x2f]) eqn:Eb.
  - apply bytes_eqb_spec in Eb. destruct s as [|a [|b t]]; try discriminate. cbn in Eb. injection Eb as -> ->.
    set (s := x6d :: x2f :: t) in *. destruct (step s 2) as [q v] eqn:E2. destruct (step s (2 + v)) as [q1 v1] eqn:E3.
    destruct (onepass_ok P version_op s Fi W (S (length s) * S (length version_op) + 1) 19 2 q v q1 v1 (context s 2)) as (x & Ex & Hx); try assumption.
    { unfold s. cbn. lia. } { rewrite Ln. lia. } { reflexivity. } { pose proof (rank_le P 19). rewrite Lo. nia. }
    exists x. split; [exact Ex|]. rewrite Hx, Step. split; [intros Q; split; [split; reflexivity|exact Q]|tauto].
  - exists false. split; [reflexivity|]. split; [discriminate|]. rewrite Step. intros [[Q1 Q2] _]. destruct s as [|a [|b t]]; try discriminate. cbn in Q1, Q2. injection Q1 as ->. injection Q2 as ->.
    cbn [firstn] in Eb. rewrite (proj2 (bytes_eqb_spec _ _) eq_refl) in Eb. discriminate.
Qed.
