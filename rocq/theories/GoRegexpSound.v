(** GoRegexpSound.v - for every pattern with a one-pass program, what the one-pass engine of GoRegexp.v accepts is a match (for C108). *)
From Verif Require Import Base BaseFacts GoStr GoStrFacts GoStrLit GoStrLitFacts Bip32 GoCodec GoRegexp SpecRegexp GoRegexpIn GoRegexpRun GoRegexpPike GoRegexpCode GoRegexpComp GoRegexpSimp GoRegexpMain GoRegexpOne.

Lemma bindr {A C} (o : outcome A) (f : A -> outcome C) x : bind o f = Ret x -> exists y, o = Ret y /\ f y = Ret x.
Proof. destruct o as [y|]; cbn [bind]; intros E; [exists y; auto|discriminate]. Qed.
Lemma ret_inj {A} (x y : A) : Ret x = Ret y -> x = y.
Proof. intros E. injection E as E. exact E. Qed.
Lemma skipn_plus {A} n : forall m (l : list A), skipn n (skipn m l) = skipn (m + n) l.
Proof. induction m as [|m IH]; intros [|x l]; cbn [skipn plus]; try reflexivity; [apply skipn_nil|apply IH]. Qed.
Lemma get_inv {A} (l : list A) i a : get l i = Ret a -> nth_error l i = Some a.
Proof. unfold get. destruct (nth_error l i); congruence. Qed.
Lemma put_inv {A} (a : A) : forall l i l', put l i a = Ret l' -> length l' = length l /\ nth_error l' i = Some a /\ (forall j, j <> i -> nth_error l' j = nth_error l j).
Proof.
  induction l as [|x l IH]; intros [|i] l' E; cbn [put] in E; try discriminate.
  - injection E as <-. repeat split. intros [|j] N; [congruence|reflexivity].
  - apply bindr in E as (r & E & Q). injection Q as <-. destruct (IH i r E) as (A1 & A2 & A3). cbn [length nth_error]. split; [congruence|]. split; [exact A2|].
    intros [|j] N; [reflexivity|]. apply A3. congruence.
Qed.

(** ** What the compiler puts into a program *)
(** Single runes of an instruction are ASCII, instruction 0 fails; bip32/reg_ver_bytes.go:75 *)
Definition lit1 (k : nat) (i : Inst) : Prop := (forall r, Rune i = [r] -> 0 <= r < 128) /\ (k = O -> Op i = InstFail).
(** as above, of a program; bip32/reg_ver_bytes.go:75 *)
Definition litp (p : list Inst) : Prop := (0 < length p)%nat /\ forall k i, nth_error p k = Some i -> lit1 k i.
Lemma lit_field p n v p' : litp p -> put_field p n v = Ret p' -> litp p'.
Proof.
  intros [L H] E. unfold put_field in E. apply bindr in E as (i & Ei & E). apply get_inv in Ei. apply put_inv in E as (A1 & A2 & A3).
  split; [lia|]. intros k j Hk. destruct (Nat.eq_dec k (Nat.div2 n)) as [->|N].
  - rewrite A2 in Hk. injection Hk as <-. specialize (H _ _ Ei). destruct (Nat.odd n); exact H.
  - rewrite A3 in Hk by exact N. exact (H _ _ Hk).
Qed.
Lemma lit_app p i : litp p -> (forall r, Rune i = [r] -> 0 <= r < 128) -> litp (p ++ [i]).
Proof.
  intros [L H] Hi. split; [rewrite app_length; lia|]. intros k j Hk. destruct (Nat.lt_ge_cases k (length p)) as [Q|Q].
  - rewrite nth_error_app1 in Hk by exact Q. exact (H _ _ Hk).
  - rewrite nth_error_app2 in Hk by exact Q. destruct (k - length p)%nat as [|[|m]] eqn:E; cbn in Hk; try discriminate. injection Hk as <-. split; [exact Hi|]. lia.
Qed.
Lemma lit_nil p o a b : litp p -> litp (p ++ [mkInst o a b []]).
Proof. intros H. apply lit_app; [exact H|]. intros r Q. discriminate. Qed.
Lemma lit_patch v : forall fuel p h p', litp p -> patch fuel p h v = Ret p' -> litp p'.
Proof.
  induction fuel as [|fuel IH]; intros p h p' H E; cbn [patch] in E; [discriminate|]. destruct (h =? 0)%nat; [injection E as <-; exact H|].
  apply bindr in E as (nx & _ & E). apply bindr in E as (p1 & E1 & E). apply (IH _ _ _ (lit_field _ _ _ _ H E1) E).
Qed.
Lemma lit_cat p f1 f2 p' f : litp p -> c_cat p f1 f2 = Ret (p', f) -> litp p'.
Proof.
  intros H E. unfold c_cat in E. destruct (_ || _); [injection E as <- <-; exact H|]. apply bindr in E as (p1 & E1 & E). injection E as <- <-. exact (lit_patch _ _ _ _ _ H E1).
Qed.
Lemma lit_loop p f1 p' f : litp p -> c_loop p f1 = Ret (p', f) -> litp p'.
Proof. intros H E. unfold c_loop in E. cbv zeta in E. apply bindr in E as (p1 & E1 & E). injection E as <- <-. exact (lit_patch _ _ _ _ _ (lit_nil p _ _ _ H) E1). Qed.
Lemma lit_plus p f1 p' f : litp p -> c_plus p f1 = Ret (p', f) -> litp p'.
Proof. intros H E. unfold c_plus in E. apply bindr in E as ([p1 f2] & E1 & E). injection E as <- <-. exact (lit_loop _ _ _ _ H E1). Qed.
Lemma lit_quest p f1 p' f : litp p -> c_quest p f1 = Ret (p', f) -> litp p'.
Proof.
  intros H E. unfold c_quest in E. cbv zeta in E. apply bindr in E as ([p1 l] & E1 & E). injection E as <- <-. unfold append_list in E1.
  pose proof (lit_nil p InstAlt (f_i f1) 0%nat H) as H1. destruct (_ =? 0)%nat; [injection E1 as <- _; exact H1|]. destruct (_ =? 0)%nat; [injection E1 as <- _; exact H1|].
  apply bindr in E1 as (p2 & E2 & E1). injection E1 as <- _. exact (lit_field _ _ _ _ H1 E2).
Qed.
Lemma lit_star p f1 p' f : litp p -> c_star p f1 = Ret (p', f) -> litp p'.
Proof.
  intros H E. unfold c_star in E. destruct (f_nullable f1); [|exact (lit_loop _ _ _ _ H E)]. apply bindr in E as ([p1 f2] & E1 & E). exact (lit_quest _ _ _ _ (lit_plus _ _ _ _ H E1) E).
Qed.
Lemma lit_rune p rs fold p' f : litp p -> (forall r, rs = [r] -> 0 <= r < 128) -> c_rune p rs fold = (p', f) -> litp p'.
Proof. intros H R E. unfold c_rune, c_inst in E. cbv zeta in E. injection E as <- <-. apply lit_app; [exact H|]. exact R. Qed.
Lemma lit_literal fold : forall rs p f p' f', litp p -> Forall (fun r => 0 <= r < 128) rs -> c_literal p f rs fold = Ret (p', f') -> litp p'.
Proof.
  induction rs as [|r rs IH]; intros p f p' f' H F E; cbn [c_literal] in E; [injection E as <- <-; exact H|]. inversion F as [|x y Hr F']. subst.
  destruct (c_rune p [r] fold) as [p1 f1] eqn:E1. apply bindr in E as ([p2 f2] & E2 & E). apply (IH _ _ _ _ (lit_cat _ _ _ _ _ (lit_rune _ [r] _ _ _ H ltac:(intros r' Q; injection Q as <-; exact Hr) E1) E2) F' E).
Qed.
Lemma lit_compile re : forall p p' f, re_ok re -> litp p -> compile p re = Ret (p', f) -> litp p'.
Proof.
  induction re as [|fold rs|rs| | |k a IH|a IH|a IH|a IH|mn mx a IH|a IHa b IHb]; intros p p' f Ok H E; cbn [compile] in E; cbn [re_ok] in Ok.
  - unfold c_inst in E; injection E as <- <-; apply lit_nil; exact H.
  - destruct rs as [|r rs]; [unfold c_inst in E; injection E as <- <-; apply lit_nil; exact H|].
    destruct (c_rune p [r] fold) as [p1 f1] eqn:E1. inversion Ok as [|x y Hr F]. subst.
    refine (lit_literal fold rs p1 f1 p' f (lit_rune _ [r] _ _ _ H _ E1) _ E); [intros r' Q; injection Q as <-; tauto|].
    eapply Forall_impl; [|exact F]. cbn beta. tauto.
  - apply ret_inj in E. apply (lit_rune p rs false p' f H); [|exact E]. intros r ->. cbn in Ok. tauto.
  - unfold c_inst in E; injection E as <- <-; apply lit_nil; exact H.
  - unfold c_inst in E; injection E as <- <-; apply lit_nil; exact H.
  - unfold c_inst in E. apply bindr in E as ([p1 sub] & E1 & E). apply bindr in E as ([p2 f2] & E2 & E).
    apply (lit_cat _ _ _ _ _ (lit_cat _ _ _ _ _ (lit_nil _ _ _ _ (IH _ _ _ Ok (lit_nil _ _ _ _ H) E1)) E2) E).
  - apply bindr in E as ([p1 f1] & E1 & E). exact (lit_star _ _ _ _ (IH _ _ _ Ok H E1) E).
  - apply bindr in E as ([p1 f1] & E1 & E). exact (lit_plus _ _ _ _ (IH _ _ _ Ok H E1) E).
  - apply bindr in E as ([p1 f1] & E1 & E). exact (lit_quest _ _ _ _ (IH _ _ _ Ok H E1) E).
  - discriminate.
  - apply bindr in E as ([p1 f1] & E1 & E). apply bindr in E as ([p2 f2] & E2 & E).
    exact (lit_cat _ _ _ _ _ (IHb _ _ _ (proj2 Ok) (IHa _ _ _ (proj1 Ok) H E1) E2) E).
Qed.
Lemma Compile_lit re p start : re_ok re -> Compile re = Ret (p, start) -> litp p.
Proof.
  intros Ok E. unfold Compile in E. apply bindr in E as ([p1 f] & E1 & E). cbv zeta in E. apply bindr in E as (p2 & E2 & E). injection E as <- <-.
  assert (L0 : litp [mkInst InstFail 0 0 []]). { split; [cbn; lia|]. intros [|[|k]] i Hi; cbn in Hi; try discriminate. injection Hi as <-. split; [discriminate|reflexivity]. }
  exact (lit_patch _ _ _ _ _ (lit_nil _ _ _ _ (lit_compile re _ _ _ Ok L0 E1)) E2).
Qed.

(** ** Steps that keep within the runs of the program *)
Section Sound.
Variable P : list Inst.
Variable s : bytes.
Hypothesis W : wf P.
Hypothesis LP : litp P.

(** Runs from [k] on are runs from [pc] on; bip32/reg_ver_bytes.go:75 *)
Definition leads (pc k : nat) : Prop := forall pos, acc P s (k, pos) -> acc P s (pc, pos).
Lemma leads_refl pc : leads pc pc.
Proof. intros pos A. exact A. Qed.
Lemma leads_trans a b c : leads a b -> leads b c -> leads a c.
Proof. intros H H' pos A. apply H, H', A. Qed.
Lemma leads_0 pc : leads pc 0.
Proof.
  intros pos A. exfalso. destruct LP as [L H]. destruct (nth_error P 0) as [i|] eqn:E; [|apply nth_error_None in E; lia].
  apply (acc_fail P s 0 pos i E); [|exact A]. apply (proj2 (H _ _ E)). reflexivity.
Qed.
(** An Alt both legs of which lead within the runs; bip32/reg_ver_bytes.go:75 *)
Definition alt_ok (pc : nat) (i : Inst) : Prop := is_alt (Op i) = true /\ leads pc (Out i) /\ leads pc (Arg i).
Lemma leg_leads pc i b : alt_ok pc i -> leads pc (leg i b).
Proof. intros (_ & A & C). destruct b; assumption. Qed.
Lemma set_leg_ok pc i b v : alt_ok pc i -> leads pc v -> alt_ok pc (set_leg i b v).
Proof. intros (A & B & C) H. destruct b; repeat split; assumption. Qed.
Lemma prog_alt pc i : nth_error P pc = Some i -> is_alt (Op i) = true -> alt_ok pc i.
Proof.
  intros H A. destruct (W pc i H) as (N & _). assert (O : Op i = InstAlt) by (destruct (Op i); try discriminate; congruence).
  split; [exact A|]. split; intros pos Q; apply (acc_alt P s pc pos i H O); tauto.
Qed.

(** *** onePassCopy *)
(** The program during onePassCopy; bip32/reg_ver_bytes.go:75 *)
Definition copied (p : list Inst) : Prop := length p = length P /\ forall pc i0 i, nth_error P pc = Some i0 -> nth_error p pc = Some i ->
  if is_alt (Op i0) then alt_ok pc i else i = i0.
Lemma copied_start : copied P.
Proof. split; [reflexivity|]. intros pc i0 i H H'. assert (i = i0) by congruence. subst. destruct (is_alt (Op i0)) eqn:A; [exact (prog_alt _ _ H A)|reflexivity]. Qed.
Lemma copied_in p pc i : copied p -> nth_error p pc = Some i -> exists i0, nth_error P pc = Some i0.
Proof. intros [L _] H. destruct (nth_error P pc) as [i0|] eqn:E; [eauto|]. apply nth_error_None in E. assert (pc < length p)%nat by (apply nth_error_Some; congruence). lia. Qed.
Lemma copied_alt p pc i : copied p -> nth_error p pc = Some i -> is_alt (Op i) = true -> alt_ok pc i.
Proof.
  intros C H A. destruct (copied_in p pc i C H) as (i0 & E). pose proof (proj2 C _ _ _ E H) as Q. destruct (is_alt (Op i0)) eqn:A0; [exact Q|]. subst. congruence.
Qed.
Lemma copied_put p pc i x p' : copied p -> nth_error p pc = Some i -> is_alt (Op i) = true -> alt_ok pc x -> put p pc x = Ret p' -> copied p'.
Proof.
  intros C H A Hx E. apply put_inv in E as (L & N1 & N2). split; [destruct C; lia|]. intros k i0 j Hk Hj. destruct (Nat.eq_dec k pc) as [->|N].
  - rewrite N1 in Hj. injection Hj as <-. pose proof (proj2 C _ _ _ Hk H) as Q. destruct (is_alt (Op i0)) eqn:A0; [exact Hx|]. subst. congruence.
  - rewrite N2 in Hj by exact N. exact (proj2 C _ _ _ Hk Hj).
Qed.
Lemma copy_round_ok p pc p' : copied p -> copy_round p pc = Ret p' -> copied p'.
Proof.
  intros C E. unfold copy_round in E. apply bindr in E as (a & Ea & E). apply get_inv in Ea.
  destruct (is_alt (Op a)) eqn:Aa; cbn [negb] in E; [|injection E as <-; exact C]. pose proof (copied_alt _ _ _ C Ea Aa) as Ha.
  apply bindr in E as (ia & Eia & E). apply bindr in E as (io & Eio & E). cbv zeta in E. apply get_inv in Eia, Eio.
  destruct (negb (is_alt (Op ia)) && negb (is_alt (Op io))) eqn:Eb; [injection E as <-; exact C|].
  set (alt := is_alt (Op ia)) in *. set (b := if alt then ia else io) in *.
  assert (Hb : nth_error p (leg a alt) = Some b /\ is_alt (Op b) = true).
  { unfold b. destruct alt eqn:Al; cbn [leg]; [split; [exact Eia|exact Al]|]. split; [exact Eio|]. cbn in Eb. destruct (is_alt (Op io)); [reflexivity|discriminate]. }
  destruct Hb as [Nb Ab]. pose proof (copied_alt _ _ _ C Nb Ab) as Hb. clearbody b. clear Eb Eia Eio. clearbody alt.
  apply bindr in E as (instOther & _ & E). destruct (is_alt (Op instOther)); [injection E as <-; exact C|].
  set (bAlt := negb (Out b =? pc)%nat && (Arg b =? pc)%nat) in *. set (b' := if (Out b =? pc)%nat || (Arg b =? pc)%nat then set_leg b bAlt (leg a (negb alt)) else b) in *.
  assert (Hb' : alt_ok (leg a alt) b').
  { unfold b'. destruct ((Out b =? pc)%nat || (Arg b =? pc)%nat) eqn:Pt; [|exact Hb]. apply set_leg_ok; [exact Hb|].
    apply (leads_trans _ pc); [|apply leg_leads; exact Ha]. destruct Hb as (_ & L1 & L2). apply Bool.orb_true_iff in Pt. destruct Pt as [Q|Q]; apply Nat.eqb_eq in Q; rewrite <- Q at 1; assumption. }
  apply bindr in E as (p1 & E1 & E). pose proof (copied_put _ _ _ _ _ C Nb Ab Hb' E1) as C1. apply bindr in E as (a1 & Ea1 & E). apply get_inv in Ea1.
  destruct (leg a1 (negb alt) =? leg b' bAlt)%nat; [|apply ret_inj in E; subst; exact C1].
  assert (A1 : is_alt (Op a1) = true).
  { destruct (copied_in p pc a C Ea) as (i0 & E0). pose proof (proj2 C1 _ _ _ E0 Ea1) as Q1. pose proof (proj2 C _ _ _ E0 Ea) as Q. destruct (is_alt (Op i0)) eqn:A0; [exact (proj1 Q1)|]. subst. congruence. }
  refine (copied_put _ _ _ _ _ C1 Ea1 A1 _ E). apply set_leg_ok; [exact (copied_alt _ _ _ C1 Ea1 A1)|].
  apply (leads_trans _ (leg a alt)); [apply leg_leads; exact Ha|apply leg_leads; exact Hb'].
Qed.
Lemma onePassCopy_ok : forall n pc p p', copied p -> onePassCopy n pc p = Ret p' -> copied p'.
Proof.
  induction n as [|n IH]; intros pc p p' C E; cbn [onePassCopy] in E; [injection E as <-; exact C|]. apply bindr in E as (p1 & E1 & E). exact (IH _ _ _ (copy_round_ok _ _ _ C E1) E).
Qed.

(** *** makeOnePass *)
(** The runes makeOnePass collects for an InstRune; bip32/reg_ver_bytes.go:75 *)
Definition rune_table (i : Inst) : list Z := match Rune i with [r] => if Nat.odd (Arg i) then fold_pairs r else [r] | rs => rs end.
(** An instruction and its runes during makeOnePass, [i0] the original; bip32/reg_ver_bytes.go:75 *)
Definition made (pc : nat) (i0 : Inst) (o : oInst) (rs : list Z) : Prop :=
  match Op i0 with
  | InstAlt | InstAltMatch => alt_ok pc (o_inst o) /\ Forall (leads pc) (o_next o)
  | InstRune => o_inst o = i0 /\ (rs = [] \/ rs = rune_table i0)
  | InstRune1 => True
  | _ => o_inst o = i0
  end.
(** as above, of all instructions; bip32/reg_ver_bytes.go:75 *)
Definition all_made (pr : list oInst) (rn : list (list Z)) : Prop := length pr = length P /\ length rn = length P /\
  forall pc i0 o rs, nth_error P pc = Some i0 -> nth_error pr pc = Some o -> nth_error rn pc = Some rs -> made pc i0 o rs.
Lemma write_ok st pc o rs m st' : all_made (op_prog st) (op_runes st) -> (forall i0, nth_error P pc = Some i0 -> made pc i0 o rs) ->
  op_write st pc o rs m = Ret st' -> all_made (op_prog st') (op_runes st').
Proof.
  intros (L1 & L2 & H) Hw E. unfold op_write in E. apply bindr in E as (pr & E1 & E). apply bindr in E as (rn & E2 & E). apply bindr in E as (ms & _ & E). injection E as <-. cbn [op_prog op_runes].
  apply put_inv in E1 as (A1 & A2 & A3). apply put_inv in E2 as (B1 & B2 & B3). split; [lia|]. split; [lia|]. intros k i0 o' rs' Hk Ho Hr.
  destruct (Nat.eq_dec k pc) as [->|N].
  - rewrite A2 in Ho. rewrite B2 in Hr. injection Ho as <-. injection Hr as <-. exact (Hw _ Hk).
  - rewrite A3 in Ho by exact N. rewrite B3 in Hr by exact N. exact (H _ _ _ _ Hk Ho Hr).
Qed.
Lemma merge_next lpc rpc : forall fuel l r acc0 next rs nx, Forall (fun k => k = lpc \/ k = rpc) next ->
  mergeRuneSets fuel l r lpc rpc acc0 next = Ret (Some (rs, nx)) -> Forall (fun k => k = lpc \/ k = rpc) nx.
Proof.
  induction fuel as [|fuel IH]; intros l r acc0 next rs nx F E; cbn [mergeRuneSets] in E; [discriminate|].
  assert (X : forall lo hi l' r' pc, pc = lpc \/ pc = rpc ->
    match acc0 with m :: _ => if lo <=? m then Ret None else mergeRuneSets fuel l' r' lpc rpc (hi :: lo :: acc0) (pc :: next) | [] => mergeRuneSets fuel l' r' lpc rpc [hi; lo] [pc] end = Ret (Some (rs, nx)) ->
    Forall (fun k => k = lpc \/ k = rpc) nx).
  { intros lo hi l' r' pc Hp Q. destruct acc0 as [|m acc1]; [refine (IH _ _ _ _ _ _ _ Q); constructor; [exact Hp|constructor]|].
    destruct (lo <=? m); [discriminate|]. refine (IH _ _ _ _ _ _ _ Q). constructor; [exact Hp|exact F]. }
  destruct l as [|lo [|hi l]]; destruct r as [|lo' [|hi' r]]; try discriminate.
  - injection E as <- <-. apply Forall_rev. exact F.
  - apply (X _ _ _ _ _ (or_intror eq_refl) E).
  - apply (X _ _ _ _ _ (or_introl eq_refl) E).
  - destruct (lo' <? lo); [apply (X _ _ _ _ _ (or_intror eq_refl) E)|apply (X _ _ _ _ _ (or_introl eq_refl) E)].
Qed.
Lemma check_ok : forall fuel st pc ok st', all_made (op_prog st) (op_runes st) -> check fuel st pc = Ret (ok, st') -> all_made (op_prog st') (op_runes st').
Proof.
  induction fuel as [|fuel IH]; intros st pc ok st' H E; cbn [check] in E; [discriminate|].
  apply bindr in E as (oi & Eo & E). apply get_inv in Eo. destruct (existsb (Nat.eqb pc) (op_visit st)); [injection E as <- <-; exact H|].
  cbv zeta in E. set (st0 := mkOp (op_prog st) (op_runes st) (op_m st) (op_visit st ++ [pc]) (op_queue st) (op_todo st)) in *.
  assert (H0 : all_made (op_prog st0) (op_runes st0)) by exact H.
  assert (M : forall i0, nth_error P pc = Some i0 -> exists rs, nth_error (op_runes st) pc = Some rs /\ made pc i0 oi rs).
  { intros i0 Hi. destruct H as (L1 & L2 & H). destruct (nth_error (op_runes st) pc) as [rs|] eqn:Er.
    - exists rs. split; [reflexivity|]. exact (H _ _ _ _ Hi Eo Er).
    - apply nth_error_None in Er. assert (pc < length P)%nat by (apply nth_error_Some; congruence). lia. }
  set (inst := o_inst oi) in *.
  assert (Alt : is_alt (Op inst) = true ->
    (let! q := check fuel st0 (Out inst) in let (ok1, st) := q in
     let! q := if ok1 : bool then check fuel st (Arg inst) else Ret (false, st) in let (ok, st) := q in
     let! matchOut := get (op_m st) (Out inst) in let! matchArg := get (op_m st) (Arg inst) in
     if matchOut && matchArg then Ret (false, st)
     else let inst := if matchArg then mkInst (Op inst) (Arg inst) (Out inst) (Rune inst) else inst in
          let matchOut := matchOut || matchArg in
          let inst := if matchOut then mkInst InstAltMatch (Out inst) (Arg inst) (Rune inst) else inst in
          let! m0 := get (op_m st) pc in let! l := get (op_runes st) (Out inst) in let! r := get (op_runes st) (Arg inst) in
          let! mr := mergeRuneSets (S (length l + length r)) l r (Out inst) (Arg inst) [] [] in
          match mr with
          | None => let! st := op_write st pc (mkO inst []) [] (matchOut || m0) in Ret (false, st)
          | Some (rs, next) => let! st := op_write st pc (mkO inst next) rs (matchOut || m0) in Ret (ok, st)
          end) = Ret (ok, st') -> all_made (op_prog st') (op_runes st')).
  { intros Al Q. apply bindr in Q as ([ok1 st1] & Q1 & Q). pose proof (IH _ _ _ _ H0 Q1) as H1. apply bindr in Q as ([ok2 st2] & Q2 & Q).
    assert (H2 : all_made (op_prog st2) (op_runes st2)). { destruct ok1; [exact (IH _ _ _ _ H1 Q2)|]. injection Q2 as <- <-. exact H1. }
    apply bindr in Q as (mo & _ & Q). apply bindr in Q as (ma & _ & Q). destruct (mo && ma); [injection Q as <- <-; exact H2|]. cbv zeta in Q.
    set (i1 := if ma then mkInst (Op inst) (Arg inst) (Out inst) (Rune inst) else inst) in *.
    set (i2 := if mo || ma then mkInst InstAltMatch (Out i1) (Arg i1) (Rune i1) else i1) in *.
    apply bindr in Q as (m0 & _ & Q). apply bindr in Q as (l & _ & Q). apply bindr in Q as (r & _ & Q). apply bindr in Q as (mr & Qm & Q).
    assert (Wr : forall next rs, Forall (fun k => k = Out i2 \/ k = Arg i2) next -> forall i0, nth_error P pc = Some i0 -> made pc i0 (mkO i2 next) rs).
    { intros next rs F i0 Hi. destruct (M i0 Hi) as (rs0 & _ & Md). unfold made in *. fold inst in Md.
      assert (Y : alt_ok pc inst -> alt_ok pc i2 /\ Forall (leads pc) next).
      { intros Ha. assert (Ha1 : alt_ok pc i1) by (unfold i1; destruct Ha as (X1 & X2 & X3); destruct ma; repeat split; assumption).
        assert (Ha2 : alt_ok pc i2) by (unfold i2; destruct Ha1 as (X1 & X2 & X3); destruct (mo || ma); repeat split; assumption).
        split; [exact Ha2|]. eapply Forall_impl; [|exact F]. cbn beta. destruct Ha2 as (_ & X2 & X3). intros k [-> | ->]; assumption. }
      clearbody i2 i1 inst. clear - Md Y Al. cbn [o_inst o_next].
      destruct (Op i0) eqn:O0; try exact I; try (apply Y; exact (proj1 Md)); exfalso; assert (Eq : inst = i0) by tauto; subst inst; rewrite O0 in Al; discriminate. }
    destruct mr as [[rs next]|].
    - apply bindr in Q as (st3 & Q3 & Q). injection Q as <- <-. refine (write_ok _ _ _ _ _ _ H2 _ Q3). apply Wr. exact (merge_next _ _ _ _ _ _ _ _ _ (Forall_nil _) Qm).
    - apply bindr in Q as (st3 & Q3 & Q). injection Q as <- <-. refine (write_ok _ _ _ _ _ _ H2 _ Q3). apply Wr. constructor. }
  assert (Same : forall next rs, is_alt (Op inst) = false -> is_rune (Op inst) = false -> forall i0, nth_error P pc = Some i0 -> made pc i0 (mkO inst next) rs).
  { intros next rs A1 A2 i0 Hi. destruct (M i0 Hi) as (rs0 & _ & Md). unfold made in *. fold inst in Md. cbn [o_inst o_next]. clearbody inst. clear - Md A1 A2.
    destruct (Op i0) eqn:O0; try exact I; try exact Md; exfalso; [destruct Md as [[Q _] _]; congruence|destruct Md as [[Q _] _]; congruence|]. destruct Md as [Md _]. subst inst. rewrite O0 in A2. discriminate. }
  assert (Skip : is_alt (Op inst) = false -> is_rune (Op inst) = false ->
    (let! q := check fuel st0 (Out inst) in let (ok, st) := q in
     let! m := get (op_m st) (Out inst) in let! rs := get (op_runes st) (Out inst) in
     let! st := op_write st pc (mkO inst (repeat (Out inst) (Nat.div2 (length rs) + 1))) rs m in Ret (ok, st)) = Ret (ok, st') -> all_made (op_prog st') (op_runes st')).
  { intros A1 A2 Q. apply bindr in Q as ([ok1 st1] & Q1 & Q). pose proof (IH _ _ _ _ H0 Q1) as H1. apply bindr in Q as (m & _ & Q). apply bindr in Q as (rs & _ & Q). apply bindr in Q as (st3 & Q3 & Q).
    injection Q as <- <-. exact (write_ok _ _ _ _ _ _ H1 (Same _ _ A1 A2) Q3). }
  assert (Stop : is_alt (Op inst) = false -> is_rune (Op inst) = false ->
    (let! rs := get (op_runes st0) pc in let! st := op_write st0 pc oi rs (is_match (Op inst)) in Ret (true, st)) = Ret (ok, st') -> all_made (op_prog st') (op_runes st')).
  { intros A1 A2 Q. apply bindr in Q as (rs & _ & Q). apply bindr in Q as (st3 & Q3 & Q). injection Q as <- <-. refine (write_ok _ _ _ _ _ _ H0 _ Q3).
    intros i0 Hi. pose proof (Same (o_next oi) rs A1 A2 i0 Hi) as X. unfold inst in X. destruct oi as [x y]. exact X. }
  assert (Rn : is_rune (Op inst) = true ->
    (let! rs0 := get (op_runes st0) pc in
     match o_next oi with
     | _ :: _ => let! st := op_write st0 pc oi rs0 false in Ret (true, st)
     | [] => let st := op_insert st0 (Out inst) in
          let rs := match Op inst, Rune inst with InstRune1, r :: _ => [r; r] | _, [r] => if Nat.odd (Arg inst) then fold_pairs r else [r] | _, rs => rs end in
          let! st := op_write st pc (mkO (mkInst InstRune (Out inst) (Arg inst) (Rune inst)) (repeat (Out inst) (Nat.div2 (length rs) + 1))) rs false in Ret (true, st)
     end) = Ret (ok, st') -> all_made (op_prog st') (op_runes st')).
  { intros Rn Q. apply bindr in Q as (rs0 & Qr & Q). apply get_inv in Qr. cbn [op_runes st0] in Qr. destruct (o_next oi) as [|x nx].
    - cbv zeta in Q. apply bindr in Q as (st3 & Q3 & Q). injection Q as <- <-. refine (write_ok (op_insert st0 (Out inst)) _ _ _ _ _ _ _ Q3).
      + unfold op_insert. destruct (existsb _ _); exact H0.
      + intros i0 Hi. destruct (M i0 Hi) as (rs1 & _ & Md). unfold made in *. fold inst in Md. cbn [o_inst o_next]. clearbody inst. clear - Md Rn.
        destruct (Op i0) eqn:O0; try exact I; try (exfalso; subst inst; rewrite O0 in Rn; discriminate).
        * exfalso. destruct Md as [(Q & _) _]. destruct (Op inst); discriminate.
        * exfalso. destruct Md as [(Q & _) _]. destruct (Op inst); discriminate.
        * destruct Md as [-> _]. rewrite O0. split; [destruct i0; cbn in *; congruence|]. right. unfold rune_table. destruct (Rune i0) as [|? [|? ?]]; reflexivity.
    - apply bindr in Q as (st3 & Q3 & Q). injection Q as <- <-. refine (write_ok _ _ _ _ _ _ H0 _ Q3). intros i0 Hi. destruct (M i0 Hi) as (rs1 & E1 & Md). assert (rs1 = rs0) by congruence. subst. exact Md. }
  destruct (Op inst) eqn:Oi.
  all: first [exact (Alt eq_refl E)|exact (Skip eq_refl eq_refl E)|exact (Stop eq_refl eq_refl E)|exact (Rn eq_refl E)].
Qed.
Lemma make_loop_ok n : forall fuel st st', all_made (op_prog st) (op_runes st) -> make_loop fuel n st = Ret (Some st') -> all_made (op_prog st') (op_runes st').
Proof.
  induction fuel as [|fuel IH]; intros st st' H E; cbn [make_loop] in E; [discriminate|]. destruct (op_todo st) as [|pc todo]; [injection E as <-; exact H|].
  apply bindr in E as ([ok st1] & E1 & E). assert (H1 : all_made (op_prog st1) (op_runes st1)) by (eapply check_ok; [|exact E1]; exact H).
  destruct ok; [exact (IH _ _ H1 E)|discriminate].
Qed.
Lemma cleanup_nth : forall orig pr rn pc o', nth_error (cleanup orig pr rn) pc = Some o' -> exists i0 oi rs, nth_error orig pc = Some i0 /\ nth_error pr pc = Some oi /\ nth_error rn pc = Some rs /\
  o' = match Op i0 with
       | InstAlt | InstAltMatch | InstRune => mkO (mkInst (Op (o_inst oi)) (Out (o_inst oi)) (Arg (o_inst oi)) rs) (o_next oi)
       | InstRune1 => mkO i0 []
       | _ => mkO (mkInst (Op (o_inst oi)) (Out (o_inst oi)) (Arg (o_inst oi)) rs) []
       end.
Proof.
  induction orig as [|i0 orig IH]; intros [|oi pr] [|rs rn] pc o' H; cbn [cleanup] in H; try (destruct pc; discriminate).
  destruct pc as [|pc]; cbn [nth_error] in *; [|exact (IH _ _ _ _ H)]. exists i0, oi, rs. repeat split. injection H as <-. reflexivity.
Qed.

(** *** The program after cleanupOnePass *)
(** An instruction of the one-pass program, [i0] the original; bip32/reg_ver_bytes.go:75 *)
Definition safe (pc : nat) (i0 : Inst) (o : oInst) : Prop :=
  match Op i0 with
  | InstAlt | InstAltMatch => alt_ok pc (o_inst o) /\ Forall (leads pc) (o_next o)
  | InstRune | InstRune1 => Op (o_inst o) = Op i0 /\ Out (o_inst o) = Out i0 /\ forall c, MatchRune (o_inst o) c = Ret true -> MatchRune i0 c = Ret true
  | _ => Op (o_inst o) = Op i0 /\ Out (o_inst o) = Out i0 /\ Arg (o_inst o) = Arg i0
  end.
Lemma table_match i0 c : Op i0 = InstRune -> MatchRune (mkInst (Op i0) (Out i0) (Arg i0) (rune_table i0)) c = Ret true -> MatchRune i0 c = Ret true.
Proof.
  intros O. unfold MatchRune. cbn [Op Arg Rune]. rewrite O. unfold rune_table. destruct (Rune i0) as [|r [|r' rs]]; try (intros E; exact E).
  destruct (Nat.odd (Arg i0)) eqn:Od; [|intros E; exact E]. unfold fold_pairs. cbv zeta.
  assert (G : c = r \/ (c = SimpleFold r /\ SimpleFold r <> r) -> (let! o := MatchRunePos (Arg i0) [r] c in Ret match o with Some _ => true | None => false end) = Ret true).
  { intros Hc. unfold MatchRunePos. cbn [length]. rewrite (get_some [r] 0 r eq_refl). cbn [bind]. destruct (c =? r) eqn:Ec; [reflexivity|]. rewrite Od. cbn [folds].
    destruct Hc as [-> |[-> N]]; [lia|]. replace (SimpleFold r =? r) with false by (symmetry; apply Z.eqb_neq; exact N). rewrite Z.eqb_refl. reflexivity. }
  intros E. apply G. destruct (SimpleFold r =? r) eqn:E0; [|destruct (r <? SimpleFold r)]; unfold MatchRunePos in E; cbn [length] in E.
  - rewrite (get_some [r; r] 0 r eq_refl), (get_some [r; r] 1 r eq_refl) in E. cbn [bind] in E. destruct ((r <=? c) && (c <=? r)) eqn:Q; [|discriminate]. left. lia.
  - cbn [bind] in E. destruct (pairs_pos [r; r; SimpleFold r; SimpleFold r] c 0) as [k|] eqn:Q; [|discriminate]. cbn [pairs_pos] in Q.
    destruct (c <? r) eqn:Q1; [discriminate|]. destruct (c <=? r) eqn:Q2; [left; lia|]. destruct (c <? SimpleFold r) eqn:Q3; [discriminate|]. destruct (c <=? SimpleFold r) eqn:Q4; [right; lia|discriminate].
  - cbn [bind] in E. destruct (pairs_pos [SimpleFold r; SimpleFold r; r; r] c 0) as [k|] eqn:Q; [|discriminate]. cbn [pairs_pos] in Q.
    destruct (c <? SimpleFold r) eqn:Q3; [discriminate|]. destruct (c <=? SimpleFold r) eqn:Q4; [right; lia|]. destruct (c <? r) eqn:Q1; [discriminate|]. destruct (c <=? r) eqn:Q2; [left; lia|discriminate].
Qed.
Lemma cleanup_safe pr rn pc o : all_made pr rn -> nth_error (cleanup P pr rn) pc = Some o -> exists i0, nth_error P pc = Some i0 /\ safe pc i0 o.
Proof.
  intros (_ & _ & H) E. destruct (cleanup_nth _ _ _ _ _ E) as (i0 & oi & rs & H1 & H2 & H3 & ->). exists i0. split; [exact H1|]. specialize (H _ _ _ _ H1 H2 H3).
  unfold made in H. unfold safe. destruct (Op i0) eqn:O; cbn [o_inst o_next Op Out Arg].
  all: try (rewrite H, O; auto; fail).
  - destruct H as [(A & B & C) D]. repeat split; assumption.
  - destruct H as [(A & B & C) D]. repeat split; assumption.
  - destruct H as [-> [-> | ->]]; (split; [exact O|]; split; [reflexivity|]); intros c M.
    + exfalso. unfold MatchRune in M. cbn [Op] in M. rewrite O in M. discriminate M.
    + exact (table_match i0 c O M).
  - split; [exact O|]. split; [reflexivity|]. intros c M. exact M.
Qed.
Lemma compileOnePass_safe start op : compileOnePass P start = Ret (Some op) ->
  (forall pc o, nth_error op pc = Some o -> exists i0, nth_error P pc = Some i0 /\ safe pc i0 o) /\
  exists i, nth_error P start = Some i /\ Op i = InstEmptyWidth.
Proof.
  intros E. unfold compileOnePass in E. destruct (start =? 0)%nat; [discriminate|]. apply bindr in E as (i & Ei & E). apply get_inv in Ei.
  destruct (negb _) eqn:Eo in E; [discriminate|]. apply bindr in E as (ok & _ & E). destruct (negb ok); [discriminate|]. apply bindr in E as (c & Ec & E).
  destruct (1000 <=? length c)%nat; [discriminate|]. cbv zeta in E. apply bindr in E as (r & Er & E). destruct r as [st|]; [|discriminate]. injection E as <-. split.
  - intros pc o. apply cleanup_safe. pose proof (onePassCopy_ok _ _ _ _ copied_start Ec) as [L C]. refine (make_loop_ok _ _ _ _ _ Er). cbn [op_prog op_runes].
    split; [rewrite map_length; exact L|]. split; [rewrite repeat_length; exact L|]. intros pc' i0 o' rs H1 H2 H3.
    rewrite nth_error_map in H2. destruct (nth_error c pc') as [i'|] eqn:E'; [|discriminate]. injection H2 as <-. apply nth_error_In in H3. apply repeat_spec in H3. subst rs.
    specialize (C _ _ _ H1 E'). unfold made. cbn [o_inst o_next]. destruct (Op i0) eqn:O; cbn [is_alt] in C; auto.
  - exists i. split; [exact Ei|]. destruct (Op i); try discriminate; reflexivity.
Qed.

(** ** The engine *)
Section Engine.
Variable op : list oInst.
Hypothesis SF : forall pc o, nth_error op pc = Some o -> exists i0, nth_error P pc = Some i0 /\ safe pc i0 o.
Lemma next_leads pc o r k : alt_ok pc (o_inst o) -> Forall (leads pc) (o_next o) -> onePassNext o r = Ret k -> leads pc k.
Proof.
  intros A F E. unfold onePassNext in E. apply bindr in E as (m & _ & E). destruct m as [j|].
  - apply get_inv in E. apply nth_error_In in E. rewrite Forall_forall in F. exact (F _ E).
  - injection E as <-. destruct (Op (o_inst o)); try apply leads_0. exact (proj1 (proj2 A)).
Qed.
Lemma loop_sound : forall fuel pc pos r width r1 width1 flag,
  (pos <= length s)%nat -> step s pos = (r, width) -> step s (pos + width) = (r1, width1) ->
  (forall q, flag_match flag q = flag_match (context s pos) q) ->
  onepass_loop fuel op s pc pos r width r1 width1 flag = Ret true -> acc P s (pc, pos).
Proof.
  induction fuel as [|fuel IH]; intros pc pos r width r1 width1 flag Lp E0 E1 Hf E; cbn [onepass_loop] in E; [discriminate|].
  apply bindr in E as (o & Eo & E). apply get_inv in Eo. destruct (SF pc o Eo) as (i0 & Hi & Sf). cbv zeta in E.
  set (inst := o_inst o) in *.
  assert (Rn : is_rune (Op i0) = true -> Out inst = Out i0 -> (forall c, MatchRune inst c = Ret true -> MatchRune i0 c = Ret true) ->
    (let! ok := MatchRune inst r in
     if ok then if (width =? 0)%nat then Ret false
       else let '(r2, width2) := if r1 =? endOfText then (r1, width1) else step s (pos + width + width1) in
            onepass_loop fuel op s (Out inst) (pos + width) r1 width1 r2 width2 (r, r1)
     else Ret false) = Ret true -> acc P s (pc, pos)).
  { intros Hr Ho Hm Q. apply bindr in Q as (ok & Em & Q). destruct ok; [|discriminate].
    destruct (step_cases s pos) as [(c & w & Ec & Rc)|(Le & Ec)]; rewrite E0 in Ec; injection Ec as -> ->; [|discriminate].
    destruct (rune_at_facts _ _ _ _ Rc) as ((W1 & W2) & C0). replace (w =? 0)%nat with false in Q by (symmetry; apply Nat.eqb_neq; lia).
    assert (E2 : (if r1 =? endOfText then (r1, width1) else step s (pos + w + width1)) = step s (pos + w + width1)).
    { destruct (step_cases s (pos + w)) as [(c' & w' & Ec' & Rc')|(Le & Ec')]; rewrite E1 in Ec'; injection Ec' as -> ->.
      - destruct (rune_at_facts _ _ _ _ Rc') as (_ & C0'). replace (c' =? endOfText) with false by (symmetry; apply Z.eqb_neq; unfold endOfText; lia). reflexivity.
      - change (-1 =? endOfText) with true. cbv iota. rewrite step_end by lia. reflexivity. }
    rewrite E2 in Q. destruct (step s (pos + w + width1)) as [r2 width2] eqn:E3. apply IH in Q; [|lia|exact E1|exact E3|].
    - apply (acc_rune P s pc pos i0 Hi Hr). exists c, w. split; [exact Rc|]. split; [exact (Hm c Em)|]. rewrite <- Ho. exact Q.
    - intros q. destruct (context_next s pos c w Rc) as (X1 & X2). destruct (context s (pos + w)) as [d1 d2]. cbn [fst snd] in *. apply flag_eqv; [exact X1|]. rewrite X2, E1. left. reflexivity. }
  assert (Al : alt_ok pc inst /\ Forall (leads pc) (o_next o) -> (let! pc := onePassNext o r in onepass_loop fuel op s pc pos r width r1 width1 flag) = Ret true -> acc P s (pc, pos)).
  { intros [A F] Q. apply bindr in Q as (k & Ek & Q). apply (next_leads pc o r k A F Ek). exact (IH _ _ _ _ _ _ _ Lp E0 E1 Hf Q). }
  unfold safe in Sf. fold inst in Sf. destruct (Op i0) eqn:O0.
  - destruct Sf as [[A A'] F]. destruct (Op inst) eqn:Oi; try discriminate; apply Al; solve [exact (conj (conj (eq_trans (f_equal is_alt Oi) A) A') F) | exact E].
  - destruct Sf as [[A A'] F]. destruct (Op inst) eqn:Oi; try discriminate; apply Al; solve [exact (conj (conj (eq_trans (f_equal is_alt Oi) A) A') F) | exact E].
  - destruct Sf as (So & Su & Sa). rewrite So in E. apply IH in E; [|assumption..]. eapply a_step; [|exact E]. rewrite Su. apply e_eps. eapply e_out; [exact Hi|tauto].
  - destruct Sf as (So & Su & Sa). rewrite So in E. destruct (flag_match flag (Arg inst)) eqn:Fm; [|discriminate]. apply IH in E; [|assumption..].
    apply (acc_empty P s pc pos i0 Hi O0). rewrite <- Sa, <- Hf, <- Su. split; [exact Fm|exact E].
  - apply (acc_final P s pc pos i0 Hi O0).
  - destruct Sf as (So & Su & Sa). rewrite So in E. discriminate.
  - destruct Sf as (So & Su & Sa). rewrite So in E. apply IH in E; [|assumption..]. eapply a_step; [|exact E]. rewrite Su. apply e_eps. eapply e_out; [exact Hi|tauto].
  - destruct Sf as (So & Su & Sm). rewrite So in E. exact (Rn eq_refl Su Sm E).
  - destruct Sf as (So & Su & Sm). rewrite So in E. exact (Rn eq_refl Su Sm E).
Qed.

(** the literal prefix *)
Lemma prefix_acc : forall fuel pc rs e, prefix_runes fuel P pc = Ret (rs, e) -> Forall (fun r => 0 <= r < 128) rs /\
  forall pos, firstn (length rs) (skipn pos s) = map bZ rs -> acc P s (e, pos + length rs)%nat -> acc P s (pc, pos).
Proof.
  induction fuel as [|fuel IH]; intros pc rs e E; cbn [prefix_runes] in E; [discriminate|]. apply bindr in E as (i & Ei & E). apply get_inv in Ei.
  assert (Z0 : Ret ([], pc) = Ret (rs, e) -> Forall (fun r => 0 <= r < 128) rs /\ forall pos, firstn (length rs) (skipn pos s) = map bZ rs -> acc P s (e, pos + length rs)%nat -> acc P s (pc, pos)).
  { intros Q. injection Q as <- <-. split; [constructor|]. intros pos _ A. cbn [length] in A. rewrite Nat.add_0_r in A. exact A. }
  destruct (is_rune (Op i)) eqn:Ir; [|exact (Z0 E)]. destruct (Rune i) as [|r [|? ?]] eqn:Er; try exact (Z0 E).
  destruct (Nat.odd (Arg i) || (r =? 65533)); [exact (Z0 E)|]. apply bindr in E as ([rs' e'] & E1 & E). injection E as <- <-.
  destruct (IH _ _ _ E1) as [F H]. destruct LP as [_ HL]. pose proof (proj1 (HL _ _ Ei) r Er) as Rr. split; [constructor; assumption|].
  intros pos Q A. cbn [length map firstn] in Q, A. destruct (skipn pos s) as [|b t] eqn:Es; [discriminate|]. injection Q as Qb Qt.
  assert (Lp : (pos < length s)%nat). { apply Nat.nle_gt. intros L. rewrite skipn_all2 in Es by exact L. discriminate. }
  assert (Ebr : Zb b = r). { subst b. rewrite Zb_bZ. apply Z.mod_small. lia. }
  apply (acc_rune P s pc pos i Ei Ir). exists r, 1%nat. split; [|split].
  - split; [exact Lp|]. rewrite Es, decode_ascii by lia. rewrite Ebr. reflexivity.
  - unfold MatchRune, MatchRunePos. rewrite Er. destruct (Op i); try discriminate; cbn [length]; rewrite (get_some [r] 0 r eq_refl); cbn [bind]; rewrite Z.eqb_refl; reflexivity.
  - apply H; [|replace (pos + 1 + length rs')%nat with (pos + S (length rs'))%nat by lia; exact A].
    rewrite <- Qt. f_equal. apply (f_equal (skipn 1)) in Es. rewrite skipn_plus in Es. rewrite Es. reflexivity.
Qed.
Lemma nops_leads : forall fuel pc k, skip_nops fuel P pc = Ret k -> leads pc k.
Proof.
  induction fuel as [|fuel IH]; intros pc k E; cbn [skip_nops] in E; [discriminate|]. apply bindr in E as (i & Ei & E). apply get_inv in Ei.
  destruct (Op i) eqn:Oi; try (injection E as <-; apply leads_refl). intros pos A. eapply a_step; [|exact (IH _ _ E pos A)]. apply e_eps. eapply e_out; [exact Ei|tauto].
Qed.
Lemma engine_sound start cond prefix e i : nth_error P start = Some i -> Op i = InstEmptyWidth -> onePassPrefix P start = Ret (prefix, e) ->
  doOnePass op start cond prefix e s = Ret true -> acc P s (start, 0%nat).
Proof.
  intros Hi Oi Ep E. unfold doOnePass in E. cbv zeta in E. destruct (cond =? 255)%nat; [discriminate|].
  destruct (step s 0) as [r width] eqn:E0. destruct (if r =? endOfText then (endOfText, O) else step s width) as [r1 width1] eqn:E1.
  assert (E1' : step s (0 + width) = (r1, width1)).
  { cbn [plus]. destruct (step_cases s 0) as [(c & w & Ec & Rc)|(Le & Ec)]; rewrite E0 in Ec; injection Ec as -> ->.
    - destruct (rune_at_facts _ _ _ _ Rc) as (_ & C0). replace (c =? endOfText) with false in E1 by (symmetry; apply Z.eqb_neq; unfold endOfText; lia). exact E1.
    - change (-1 =? endOfText) with true in E1. cbv iota in E1. rewrite E0. exact E1. }
  assert (Hf : forall q, flag_match (-1, r) q = flag_match (context s 0) q). { intros q. rewrite context_start, E0. reflexivity. }
  assert (Z0 : forall fuel, onepass_loop fuel op s start 0 r width r1 width1 (-1, r) = Ret true -> acc P s (start, 0%nat)).
  { intros fuel. apply loop_sound; [lia|exact E0|exact E1'|exact Hf]. }
  apply bindr in E as (o & Eo & E). apply get_inv in Eo. destruct prefix as [|b prefix]; [exact (Z0 _ E)|].
  destruct (flag_match (-1, r) (Arg (o_inst o))) eqn:Fm; [|exact (Z0 _ E)].
  destruct (bytes_eqb (firstn (length (b :: prefix)) s) (b :: prefix)) eqn:Pf; [|discriminate].
  destruct (SF _ _ Eo) as (i0 & Hi0 & Sf). assert (i0 = i) by congruence. subst i0. unfold safe in Sf. rewrite Oi in Sf. destruct Sf as (_ & _ & Sa).
  set (pos := length (b :: prefix)) in *. destruct (step s pos) as [r' w'] eqn:E2. destruct (step s (pos + w')) as [r1' w1'] eqn:E3.
  apply bytes_eqb_spec in Pf.
  assert (Lpos : (pos <= length s)%nat). { assert (L : length (firstn pos s) = pos) by (rewrite Pf; reflexivity). rewrite firstn_length in L. lia. }
  apply loop_sound in E; [|exact Lpos|exact E2|exact E3|reflexivity].
  apply (acc_empty P s start 0 i Hi Oi). rewrite <- Hf, <- Sa. split; [exact Fm|].
  unfold onePassPrefix in Ep. apply bindr in Ep as (i' & Ei' & Ep). apply get_inv in Ei'. assert (i' = i) by congruence. subst i'.
  apply bindr in Ep as (pc & En & Ep). apply bindr in Ep as ([rs e'] & Er & Ep). destruct rs as [|r0 rs]; [discriminate|]. injection Ep as Eb Ep' <-.
  apply (nops_leads _ _ _ En). destruct (prefix_acc _ _ _ _ Er) as [_ H].
  assert (Lrs : length (r0 :: rs) = pos). { unfold pos. cbn [length]. rewrite <- Ep', map_length. reflexivity. }
  apply H; [|rewrite Lrs; exact E]. rewrite Lrs. cbn [skipn]. rewrite Pf. cbn [map]. rewrite Eb, Ep'. reflexivity.
Qed.
End Engine.
End Sound.

(** ** The whole *)
Theorem MatchString_sound parsed R s : re_ok parsed -> MustCompile parsed = Ret R -> MatchString R s = Ret true -> exists i j, boundary s i /\ Den s parsed i j.
Proof.
  intros Ok E M. destruct (re_onepass R) as [op|] eqn:ON.
  2: { destruct (MatchString_ok parsed R s Ok E ON) as (b & Eb & H). apply H. congruence. }
  pose proof (MustCompile_good parsed R Ok E) as (W & T & _ & A & _). destruct (Simplify_ok parsed Ok) as [Ok' Nr].
  unfold MustCompile in E. cbv zeta in E. apply bindr in E as ([p start] & Ec & E). apply bindr in E as (cond & Es & E). apply bindr in E as (o & Eo & E).
  pose proof (Compile_lit _ _ _ Ok' Ec) as LP.
  destruct o as [op'|].
  2: { exfalso. apply bindr in E as (i & _ & E). destruct (is_rune (Op i)), (Rune i) as [|? [|? ?]], (Op i); try discriminate; injection E as <-; discriminate. }
  apply bindr in E as ([pre e] & Ep & E). injection E as <-. cbn [re_onepass] in ON. injection ON as ->. cbn [re_prog re_start] in *.
  destruct (compileOnePass_safe p s W start op Eo) as (SF & i & Hi & Oi).
  unfold MatchString in M. cbn [re_onepass re_min re_start re_cond re_prefix re_prefixEnd] in M. destruct (length s <? _)%nat; [discriminate|].
  pose proof (engine_sound p s LP op SF start cond pre e i Hi Oi Ep M) as Ac. apply A in Ac; [|lia]. destruct Ac as (j & D). exists 0%nat, j. split; [constructor|exact D].
Qed.
