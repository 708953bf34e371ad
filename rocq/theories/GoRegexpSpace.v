(** GoRegexpSpace.v - ReplaceAllString of GoRegexp.v with the pattern of bip32/path.go:25 deletes white space (for C97). *)
From Verif Require Import Base BaseFacts GoStr GoStrLit Bip32 GoCodec Rx RxFacts Bip32Path Bip32Reg
  GoRegexp SpecRegexp GoRegexpIn GoRegexpRun GoRegexpPike GoRegexpCode GoRegexpComp GoRegexpSimp GoRegexpMain GoRegexpLink.

(** In proofs; for bip32/path.go:22, 25, bip32/reg_ver_bytes.go:75. *)
Definition wsr (r : Z) : bool := ((9 <=? r) && (r <=? 10)) || ((12 <=? r) && (r <=? 13)) || (r =? 32).
(** In proofs; for bip32/path.go:22, 25, bip32/reg_ver_bytes.go:75. *)
Definition nws (b : byte) : bool := negb (is_ws b).
Lemma is_ws_wsr b : is_ws b = wsr (Zb b).
Proof. destruct b; reflexivity. Qed.
(** In proofs; for bip32/path.go:22, 25, bip32/reg_ver_bytes.go:75. *)
Definition space_inst : Inst := mkInst InstRune 2 0 [9; 10; 12; 13; 32; 32].
(** In proofs; for bip32/path.go:22, 25, bip32/reg_ver_bytes.go:75. *)
Definition space_prog : list Inst := [mkInst InstFail 0 0 []; space_inst; mkInst InstMatch 0 0 []].
Lemma space_compiles : MustCompile space_re = Ret (mkRe space_prog 1 0 1 None [] 0).
Proof. vm_compute. reflexivity. Qed.
Lemma space_match r : MatchRune space_inst r = Ret (wsr r).
Proof.
  unfold MatchRune, MatchRunePos, space_inst. cbn [Op Arg Rune length pairs_pos bind]. f_equal. unfold wsr.
  destruct (r =? 32) eqn:Ex; repeat match goal with |- context [?a <? ?b] => destruct (Z.ltb_spec a b) | |- context [?a <=? ?b] => destruct (Z.leb_spec a b) end; cbn; first [reflexivity|lia].
Qed.

Lemma decode_high a t r w : decode_rune (a :: t) = (r, w) -> 128 <= Zb a -> forallb (fun b => 128 <=? Zb b) (firstn w (a :: t)) = true.
Proof.
  intros E Ha. unfold decode_rune in E. cbv zeta in E. replace (Zb a <? 128) with false in E by lia.
  assert (B1 : forallb (fun b => 128 <=? Zb b) (firstn 1 (a :: t)) = true). { cbn. replace (128 <=? Zb a) with true by lia. reflexivity. }
  unfold cont, in_rng in E.
  destruct ((194 <=? Zb a) && (Zb a <=? 223)).
  { destruct t as [|b t]; [injection E as <- <-; exact B1|]. destruct ((128 <=? Zb b) && (Zb b <=? 191)) eqn:E2; injection E as <- <-; [|exact B1].
    cbn. rewrite Bool.andb_true_r. apply Bool.andb_true_iff. lia. }
  destruct ((224 <=? Zb a) && (Zb a <=? 239)).
  { destruct t as [|b [|c t]]; try (injection E as <- <-; exact B1). match type of E with (if ?x then _ else _) = _ => destruct x eqn:E3 end; injection E as <- <-; [|exact B1].
    cbn. destruct (Zb a =? 224); rewrite Bool.andb_true_r, !Bool.andb_true_iff; lia. }
  destruct ((240 <=? Zb a) && (Zb a <=? 244)).
  { destruct t as [|b [|c [|d t]]]; try (injection E as <- <-; exact B1). match type of E with (if ?x then _ else _) = _ => destruct x eqn:E3 end; injection E as <- <-; [|exact B1].
    cbn. destruct (Zb a =? 240); rewrite Bool.andb_true_r, !Bool.andb_true_iff; lia. }
  injection E as <- <-. exact B1.
Qed.
Lemma rune_not_ws s pos c w : rune_at s pos c w -> wsr c = false -> forallb nws (sub s pos (pos + w)) = true.
Proof.
  intros [L E] Hw. unfold sub. replace (pos + w - pos)%nat with w by lia. destruct (skipn_cons_lt s pos L) as (a & t & Es & _). rewrite Es in *.
  destruct (Z.ltb_spec (Zb a) 128) as [La|La].
  - destruct (decode_cases _ _ _ _ E) as [(A & B & C)|(A & _)]; [|lia]. subst w c. cbn. unfold nws. rewrite is_ws_wsr, Hw. reflexivity.
  - pose proof (decode_high _ _ _ _ E La) as H. apply forallb_forall. intros x Hx. rewrite forallb_forall in H. apply H in Hx. unfold nws. rewrite is_ws_wsr. unfold wsr. lia.
Qed.
Lemma rune_ws s pos c w : rune_at s pos c w -> wsr c = true -> w = 1%nat /\ exists b, nth_error s pos = Some b /\ is_ws b = true.
Proof.
  intros R H. destruct (rune_ascii s pos c w R) as (-> & b & Nb & ->). { unfold wsr in H. lia. } split; [reflexivity|]. exists b. rewrite is_ws_wsr. auto.
Qed.

(** what a search of a position on is to find *)
(** In proofs; for bip32/path.go:22, 25, bip32/reg_ver_bytes.go:75. *)
Definition found (s : bytes) (pos : nat) (o : option (list Z)) : Prop :=
  match o with
  | None => forallb nws (skipn pos s) = true
  | Some l => exists i b, l = [Z.of_nat i; Z.of_nat i + 1] /\ (pos <= i)%nat /\ nth_error s i = Some b /\ is_ws b = true /\ forallb nws (sub s pos i) = true
  end.
Lemma found_end s pos : (length s <= pos)%nat -> found s pos None.
Proof. intros H. cbn. rewrite skipn_all2 by exact H. reflexivity. Qed.
Lemma found_here s pos b : nth_error s pos = Some b -> is_ws b = true -> found s pos (Some [Z.of_nat pos; Z.of_nat pos + 1]).
Proof. intros N H. exists pos, b. rewrite sub_refl. auto. Qed.
Lemma found_next s pos w o : (pos + w <= length s)%nat -> forallb nws (sub s pos (pos + w)) = true -> found s (pos + w) o -> found s pos o.
Proof.
  intros L H. destruct o as [l|]; cbn.
  - intros (i & b & E & Li & Nb & Wb & F). exists i, b. split; [exact E|]. split; [lia|]. split; [exact Nb|]. split; [exact Wb|].
    rewrite (sub_app s pos (pos + w) i) by lia. rewrite forallb_app, H, F. reflexivity.
  - intros F. assert (E : skipn pos s = sub s pos (pos + w) ++ skipn (pos + w) s).
    { unfold sub. rewrite skipn_add. replace (pos + w - pos)%nat with w by lia. symmetry. apply firstn_skipn. }
    rewrite E, forallb_app, H, F. reflexivity.
Qed.

(** ** The backtracking engine *)
Section Back.
Variable s : bytes.
Notation e := (length s).
(** In proofs; for bip32/path.go:22, 25, bip32/reg_ver_bytes.go:75. *)
Definition fresh (v : Z) (pos : nat) : Prop := forall k, Z.testbit v k = true -> exists q, (q < pos)%nat /\ k = Z.of_nat e + 1 + Z.of_nat q.
Lemma fresh_0 : fresh 0 0.
Proof. intros k H. rewrite Z.testbit_0_l in H. discriminate. Qed.
Lemma visit_fresh v pc pos k : (k = Z.of_nat pc * (Z.of_nat e + 1) + Z.of_nat pos)%Z -> (pos <= e)%nat -> (pc < 3)%nat -> Z.testbit v k = false ->
  shouldVisit 3 e v pc (Z.of_nat pos) = Ret (true, Z.setbit v k).
Proof.
  intros -> L Lp T. unfold shouldVisit. cbv zeta. set (k := Z.of_nat pc * (Z.of_nat e + 1) + Z.of_nat pos) in *.
  assert (K : 0 <= k < 3 * (Z.of_nat e + 1)) by nia.
  replace ((k <? 0) || ((Z.of_nat 3 * (Z.of_nat e + 1) + 31) / 32 <=? k / 32)) with false.
  2:{ symmetry. apply Bool.orb_false_iff. split; [lia|]. apply Z.leb_gt. apply Z.div_lt_upper_bound; [lia|].
      pose proof (Z.mul_succ_div_gt (Z.of_nat 3 * (Z.of_nat e + 1) + 31) 32 ltac:(lia)). change (Z.of_nat 3) with 3 in *. lia. }
  rewrite T. reflexivity.
Qed.
Lemma tb_pop f b pc arg q jobs : tryBacktrack (S f) space_prog s b ((pc, arg, q) :: jobs) AtLoop = tryBacktrack f space_prog s b jobs (AtSkip pc q arg).
Proof. reflexivity. Qed.
Lemma tb_empty f b : tryBacktrack (S f) space_prog s b [] AtLoop = Ret (false, b).
Proof. reflexivity. Qed.
Lemma tb_rune f b jobs pos arg : tryBacktrack (S f) space_prog s b jobs (AtSkip 1 (Z.of_nat pos) arg) =
  (let (r, w) := step s pos in if wsr r then tryBacktrack f space_prog s b jobs (AtCheck 2 (Z.of_nat pos + Z.of_nat w) arg) else tryBacktrack f space_prog s b jobs AtLoop).
Proof.
  cbn [tryBacktrack]. change (get space_prog 1) with (Ret space_inst). cbn [bind]. change (Op space_inst) with InstRune. cbv iota. rewrite Nat2Z.id.
  destruct (step s pos) as [r w]. rewrite space_match. cbn [bind]. reflexivity.
Qed.
Lemma tb_check f v c m jobs pc q arg v' : shouldVisit 3 e v pc q = Ret (true, v') ->
  tryBacktrack (S f) space_prog s (mkBits v c m) jobs (AtCheck pc q arg) = tryBacktrack f space_prog s (mkBits v' c m) jobs (AtSkip pc q arg).
Proof. intros H. cbn [tryBacktrack visited b_cap b_matchcap]. change (length space_prog) with 3%nat. rewrite H. reflexivity. Qed.
Lemma tb_match f v a jobs q arg : tryBacktrack (S f) space_prog s (mkBits v [a; -1] [-1; -1]) jobs (AtSkip 2 q arg) = Ret (true, mkBits v [a; q] [a; q]).
Proof. reflexivity. Qed.
(** In proofs; for bip32/path.go:22, 25, bip32/reg_ver_bytes.go:75. *)
Definition bs (v : Z) (pos : nat) : bitState := mkBits v [Z.of_nat pos; -1] [-1; -1].
Lemma try_ok v pos : fresh v pos -> (pos <= e)%nat -> exists ok b, try_at space_prog s (bs v pos) 1 pos = Ret (ok, b) /\
  match step s pos with
  | (c, w) => if wsr c then ok = true /\ b_matchcap b = [Z.of_nat pos; Z.of_nat (pos + w)]
              else ok = false /\ exists v', b = mkBits v' [Z.of_nat pos; -1] [-1; -1] /\ fresh v' (S pos) end.
Proof.
  intros Fr L. unfold try_at. change (length space_prog) with 3%nat. change (get space_prog 1) with (Ret space_inst). cbn [bind]. change (Op space_inst) with InstRune. cbv iota.
  set (k1 := Z.of_nat e + 1 + Z.of_nat pos).
  assert (T1 : Z.testbit v k1 = false). { destruct (Z.testbit v k1) eqn:Q; [|reflexivity]. apply Fr in Q. destruct Q as (q & Lq & Eq). unfold k1 in Eq. lia. }
  unfold bs. cbn [visited b_cap b_matchcap]. rewrite (visit_fresh v 1 pos k1); [|unfold k1; lia|exact L|lia|exact T1]. cbn [bind].
  remember (10 * (3 * S e) + 20)%nat as f eqn:Ef. do 6 (destruct f as [|f]; [lia|]). clear Ef.
  rewrite tb_pop, tb_rune. destruct (step s pos) as [c w] eqn:Es. destruct (wsr c) eqn:Ew.
  - destruct (step_cases s pos) as [(c' & w' & Ec & Rc)|(Le & Ec)]; rewrite Es in Ec; [injection Ec as <- <-|injection Ec as -> ->; discriminate].
    destruct (rune_at_facts _ _ _ _ Rc) as ((W1 & W2) & _).
    set (v1 := Z.setbit v k1). set (k2 := 2 * (Z.of_nat e + 1) + Z.of_nat (pos + w)).
    assert (T2 : Z.testbit v1 k2 = false).
    { unfold v1. rewrite Z.setbit_neq by (unfold k1, k2; lia). destruct (Z.testbit v k2) eqn:Q; [|reflexivity]. apply Fr in Q. destruct Q as (q & Lq & Eq). unfold k2 in Eq. lia. }
    replace (Z.of_nat pos + Z.of_nat w) with (Z.of_nat (pos + w)) by lia.
    rewrite (tb_check _ v1 _ _ _ _ _ _ (Z.setbit v1 k2)) by (apply visit_fresh; [unfold k2; lia|lia|lia|exact T2]).
    rewrite tb_match. eexists _, _. split; [reflexivity|]. split; reflexivity.
  - rewrite tb_empty. eexists _, _. split; [reflexivity|]. split; [reflexivity|]. eexists. split; [reflexivity|]. intros k Hk. rewrite Z.setbit_eqb in Hk by (unfold k1; lia).
    apply Bool.orb_true_iff in Hk. destruct Hk as [Hk|Hk]; [apply Z.eqb_eq in Hk; exists pos; split; [lia|unfold k1 in Hk; lia]|]. apply Fr in Hk. destruct Hk as (q & Lq & Eq). exists q. split; [lia|exact Eq].
Qed.
Lemma fresh_le v a b : fresh v a -> (a <= b)%nat -> fresh v b.
Proof. intros F L k H. apply F in H. destruct H as (q & Lq & E). exists q. split; [lia|exact E]. Qed.
Lemma back_from_ok : forall fuel v pos0 pos, fresh v pos -> (pos <= e)%nat -> (e - pos + 1 < fuel)%nat ->
  exists o, backtrack_from fuel space_prog 1 s (mkBits v [pos0; -1] [-1; -1]) pos = Ret o /\ found s pos o.
Proof.
  induction fuel as [|fuel IH]; intros v pos0 pos Fr L Hf; [lia|]. cbn [backtrack_from].
  replace (pos <=? e)%nat with true by (symmetry; apply Nat.leb_le; exact L). cbn [b_cap set_start visited b_matchcap].
  destruct (try_ok v pos Fr L) as (ok & b & E & H). unfold bs in E. rewrite E. cbn [bind].
  destruct (step s pos) as [c w] eqn:Es. destruct (wsr c) eqn:Ew.
  - destruct H as [-> Hb]. destruct (step_cases s pos) as [(c' & w' & Ec & Rc)|(Le & Ec)]; rewrite Es in Ec; [injection Ec as <- <-|injection Ec as -> ->; discriminate].
    destruct (rune_ws s pos c w Rc Ew) as (-> & x & Nx & Wx). eexists. split; [reflexivity|]. rewrite Hb. replace (Z.of_nat (pos + 1)) with (Z.of_nat pos + 1) by lia.
    eapply found_here; eassumption.
  - destruct H as [-> (v' & -> & Fr')]. cbn [snd].
    destruct (step_cases s pos) as [(c' & w' & Ec & Rc)|(Le & Ec)]; rewrite Es in Ec; [injection Ec as <- <-|injection Ec as -> ->].
    + destruct (rune_at_facts _ _ _ _ Rc) as ((W1 & W2) & _). replace (w =? 0)%nat with false by (symmetry; apply Nat.eqb_neq; lia).
      destruct (IH v' (Z.of_nat pos) (pos + w)%nat) as (o & Eo & Ho); [apply (fresh_le v' (S pos)); [exact Fr'|lia]|lia|lia|].
      exists o. split; [exact Eo|]. apply (found_next s pos w); [lia|eapply rune_not_ws; eassumption|exact Ho].
    + eexists. split; [reflexivity|]. apply found_end. exact Le.
Qed.
Lemma fresh_any pos : fresh 0 pos.
Proof. intros k H. rewrite Z.testbit_0_l in H. discriminate. Qed.

(** ** Pike's machine *)
Lemma add_rune q pos c flag f : queued q 1 = false -> add (S f) space_prog q 1 pos c flag = Ret (q ++ [(1%nat, Some c)]).
Proof. intros Q. cbn [add Nat.eqb]. rewrite Q. reflexivity. Qed.
Lemma add_match q pos c flag f : queued q 2 = false -> add (S f) space_prog q 2 pos c flag = Ret (q ++ [(2%nat, Some c)]).
Proof. intros Q. cbn [add Nat.eqb]. rewrite Q. reflexivity. Qed.
Lemma next_rune r1 w1 pos : step s pos = (r1, w1) -> (if r1 =? endOfText then (r1, w1) else step s (pos + w1)) = step s (pos + w1).
Proof.
  intros E. destruct (step_cases s pos) as [(c & w & Ec & Rc)|(Le & Ec)]; rewrite E in Ec; injection Ec as -> ->.
  - destruct (rune_at_facts _ _ _ _ Rc) as (_ & C0). replace (c =? endOfText) with false by (symmetry; apply Z.eqb_neq; unfold endOfText; lia). reflexivity.
  - change (-1 =? endOfText) with true. cbv iota. rewrite step_end by lia. reflexivity.
Qed.
Lemma loop_hit fuel a x y pos r w r1 w1 flag : m_loop (S (S fuel)) space_prog 1 0 s [(2%nat, Some [a; -1])] pos r w r1 w1 flag false [x; y] = Ret (true, [a; Z.of_nat pos]).
Proof.
  remember (S fuel) as f1 eqn:E1. cbn [m_loop set_start]. change (length space_prog) with 3%nat. rewrite add_rune by reflexivity. cbn [bind app].
  cbn [m_step get nth_error space_prog bind Op put]. destruct (w =? 0)%nat; [reflexivity|]. destruct (if r1 =? endOfText then (r1, w1) else step s (pos + w + w1)) as [r2 w2].
  subst f1. cbn [m_loop]. rewrite Bool.orb_true_r. reflexivity.
Qed.
Lemma loop_ok : forall fuel x pos r w r1 w1 flag, (pos <= e)%nat -> step s pos = (r, w) -> step s (pos + w) = (r1, w1) -> (e - pos + 1 < fuel)%nat ->
  exists ok mc, m_loop fuel space_prog 1 0 s [] pos r w r1 w1 flag false [x; -1] = Ret (ok, mc) /\ found s pos (if ok : bool then Some mc else None).
Proof.
  induction fuel as [|fuel IH]; intros x pos r w r1 w1 flag L E0 E1 Hf; [lia|]. cbn [m_loop set_start]. change (Nat.testbit 0 2) with false. cbn [andb orb].
  change (length space_prog) with 3%nat. rewrite add_rune by reflexivity. cbn [bind app].
  cbn [m_step get nth_error space_prog bind Op space_inst]. fold space_inst. fold space_prog. rewrite space_match. cbn [bind].
  destruct (step_cases s pos) as [(c & w' & Ec & Rc)|(Le & Ec)]; rewrite E0 in Ec; injection Ec as -> ->.
  - destruct (rune_at_facts _ _ _ _ Rc) as ((W1 & W2) & _).
    destruct (wsr c) eqn:Ew.
    + change (length space_prog) with 3%nat. cbn [Out space_inst]. rewrite add_match by reflexivity. cbn [bind app m_step].
      replace (w' =? 0)%nat with false by (symmetry; apply Nat.eqb_neq; lia). rewrite (next_rune r1 w1 _ E1). destruct (step s (pos + w' + w1)) as [r2 w2].
      destruct fuel as [|[|fuel]]; [lia|lia|]. rewrite loop_hit. eexists _, _. split; [reflexivity|].
      destruct (rune_ws s pos c w' Rc Ew) as (-> & b & Nb & Wb). replace (Z.of_nat (pos + 1)) with (Z.of_nat pos + 1) by lia. eapply found_here; eassumption.
    + cbn [m_step bind]. replace (w' =? 0)%nat with false by (symmetry; apply Nat.eqb_neq; lia). rewrite (next_rune r1 w1 _ E1). destruct (step s (pos + w' + w1)) as [r2 w2] eqn:E2.
      destruct (IH (Z.of_nat pos) (pos + w')%nat r1 w1 r2 w2 (c, r1)) as (ok & mc & Em & Hm); [lia|exact E1|exact E2|lia|].
      exists ok, mc. split; [exact Em|]. apply (found_next s pos w'); [lia|eapply rune_not_ws; eassumption|exact Hm].
  - change (wsr (-1)) with false. cbn [m_step bind]. eexists _, _. split; [reflexivity|]. apply found_end. exact Le.
Qed.

Notation R := (mkRe space_prog 1 0 1 None [] 0).
Lemma execute_ok pos : (pos <= e)%nat -> exists o, doExecute R s pos 2 = Ret o /\ found s pos o.
Proof.
  intros L. unfold doExecute. cbn [re_min re_prog re_start re_cond]. destruct (e <? 1)%nat eqn:E1.
  { apply Nat.ltb_lt in E1. exists None. split; [reflexivity|]. apply found_end. lia. }
  destruct (Z.of_nat e <? maxBitStateLen space_prog).
  - unfold backtrack. change (0 =? 255)%nat with false. change (Nat.testbit 0 2) with false. cbn [andb repeat].
    apply back_from_ok; [apply fresh_any|exact L|lia].
  - unfold machine. change (0 =? 255)%nat with false. cbv iota. destruct (step s pos) as [r w] eqn:E0. destruct (if r =? endOfText then (endOfText, O) else step s (pos + w)) as [r1 w1] eqn:E2.
    assert (E3 : step s (pos + w) = (r1, w1)).
    { rewrite <- (next_rune r w pos E0), <- E2. destruct (step_cases s pos) as [(c & w' & Ec & Rc)|(Le & Ec)]; rewrite E0 in Ec; injection Ec as -> ->.
      - destruct (rune_at_facts _ _ _ _ Rc) as (_ & C0). replace (c =? endOfText) with false by (symmetry; apply Z.eqb_neq; unfold endOfText; lia). reflexivity.
      - reflexivity. }
    cbn [repeat]. match goal with |- context [m_loop _ _ _ _ _ _ _ _ _ _ _ ?fl _ _] =>
      destruct (loop_ok (e + 2) (-1) pos r w r1 w1 fl L E0 E3 ltac:(lia)) as (ok & mc & Em & Hm) end.
    rewrite Em. cbn [bind]. eexists. split; [reflexivity|exact Hm].
Qed.

Lemma nws_filter l : forallb nws l = true -> filter nws l = l.
Proof. induction l as [|x l IH]; cbn; [reflexivity|]. intros H. apply Bool.andb_true_iff in H. destruct H as [Hx Hl]. rewrite Hx, (IH Hl). reflexivity. Qed.
Lemma replace_ok : forall fuel pos, (pos <= e)%nat -> (e - pos + 1 < fuel)%nat -> replace_from fuel R s [] pos pos = Ret (filter nws (skipn pos s)).
Proof.
  induction fuel as [|fuel IH]; intros pos L Hf; [lia|]. cbn [replace_from].
  replace (pos <=? e)%nat with true by (symmetry; apply Nat.leb_le; exact L).
  destruct (execute_ok pos L) as (o & -> & H). cbn [bind]. destruct o as [l|].
  - destruct H as (i & b & -> & Li & Nb & Wb & F). cbn [get nth_error bind]. replace (Z.to_nat (Z.of_nat i + 1)) with (S i) by lia. rewrite Nat2Z.id.
    assert (Lb : (i < e)%nat) by (apply nth_error_Some; congruence).
    replace ((i <? pos)%nat || (e <? S i)%nat) with false. 2:{ symmetry. apply Bool.orb_false_iff. split; apply Nat.ltb_ge; lia. }
    set (w := snd (decode_rune (skipn pos s))).
    assert (Hw : (pos + w <= S i)%nat).
    { destruct (Nat.eq_dec i pos) as [->|Ni].
      - destruct (skipn_cons_lt s pos Lb) as (a & t & Es & Na). unfold w. rewrite Es. replace a with b by congruence. assert (Zb b < 128) by (rewrite is_ws_wsr in Wb; unfold wsr in Wb; lia).
        destruct (decode_rune (b :: t)) as [c v] eqn:E. destruct (decode_cases _ _ _ _ E) as [(A1 & A2 & A3)|(A1 & _)]; [cbn [snd]; lia|lia].
      - (* the rune at pos ends before the white space found *)
        destruct (Nat.le_gt_cases (pos + w) (S i)) as [Q|Q]; [exact Q|exfalso]. destruct (skipn_cons_lt s pos ltac:(lia)) as (a & t & Es & Na). unfold w in Q. rewrite Es in Q.
        destruct (decode_rune (a :: t)) as [c v] eqn:E. cbn [snd] in Q. destruct (decode_cases _ _ _ _ E) as [(A1 & A2 & A3)|(A1 & _)]; [lia|].
        pose proof (decode_high _ _ _ _ E A1) as Hh. rewrite <- Es in Hh. rewrite forallb_forall in Hh.
        assert (In b (firstn v (skipn pos s))).
        { apply nth_error_In with (n := (i - pos)%nat). rewrite nth_error_firstn_lt by lia. rewrite nth_error_skipn. replace (pos + (i - pos))%nat with i by lia. exact Nb. }
        apply Hh in H. rewrite is_ws_wsr in Wb. unfold wsr in Wb. lia. }
    replace (S i <? pos + w)%nat with false by (symmetry; apply Nat.ltb_ge; lia). replace (S i <? pos + 1)%nat with false by (symmetry; apply Nat.ltb_ge; lia).
    rewrite (IH (S i)) by lia. cbn [bind]. f_equal.
    assert (Eb : (if (pos <? S i)%nat || (i =? 0)%nat then ([] : bytes) else []) = []) by (destruct ((pos <? S i)%nat || (i =? 0)%nat); reflexivity). rewrite Eb, app_nil_r.
    fold (sub s pos i). assert (E : skipn pos s = sub s pos i ++ b :: skipn (S i) s).
    { rewrite <- (firstn_skipn (i - pos) (skipn pos s)) at 1. unfold sub. f_equal. rewrite <- skipn_add. replace (pos + (i - pos))%nat with i by lia.
      destruct (skipn_cons_lt s i Lb) as (a & t & Es & Na). rewrite Es. replace a with b by congruence. f_equal. replace (S i) with (i + 1)%nat by lia. rewrite skipn_add, Es. reflexivity. }
    rewrite E, filter_app, (nws_filter _ F). cbn [filter]. unfold nws at 2. rewrite Wb. reflexivity.
  - cbn in H. rewrite (nws_filter _ H). reflexivity.
Qed.
End Back.

Theorem GoPathString_ok p : GoPathString p = Ret (PathString p).
Proof.
  unfold GoPathString. rewrite space_compiles. cbn [bind]. unfold ReplaceAllString. rewrite replace_ok by lia. reflexivity.
Qed.
