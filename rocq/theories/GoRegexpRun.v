(** GoRegexpRun.v - runs of a regexp program, and proof that the backtracking engine of GoRegexp.v finds one exactly when
    there is one (for C97). *)
From Verif Require Import Base BaseFacts GoStr GoStrLit Bip32 GoCodec GoRegexp SpecRegexp GoRegexpIn.

Section Run.
Variable p : list Inst.
Variable s : bytes.

(** An instruction that may be jumped to. *)
(** In proofs; for bip32/path.go:22, 25, bip32/reg_ver_bytes.go:75. *)
Definition tgt (x : nat) : Prop := x <> O /\ exists j, nth_error p x = Some j /\ Op j <> InstFail.
(** Well-formed programs: no jump to the failing instruction or out of the program, rune tests that do not panic and fail at the end. *)
(** In proofs; for bip32/path.go:22, 25, bip32/reg_ver_bytes.go:75. *)
Definition wf : Prop := forall pc i, nth_error p pc = Some i ->
  Op i <> InstAltMatch /\
  match Op i with InstMatch | InstFail => True | InstAlt => tgt (Out i) /\ tgt (Arg i) | _ => tgt (Out i) end /\
  (is_rune (Op i) = true -> exists f : Z -> bool, (forall r, MatchRune i r = Ret (f r)) /\ f (-1) = false).

(** One instruction executed at a position without reading, and reading a rune. *)
(** In proofs; for bip32/path.go:22, 25, bip32/reg_ver_bytes.go:75. *)
Inductive eps (pos : nat) : nat -> nat -> Prop :=
| e_out pc i : nth_error p pc = Some i -> Op i = InstAlt \/ Op i = InstCapture \/ Op i = InstNop -> eps pos pc (Out i)
| e_arg pc i : nth_error p pc = Some i -> Op i = InstAlt -> eps pos pc (Arg i)
| e_empty pc i : nth_error p pc = Some i -> Op i = InstEmptyWidth -> flag_match (context s pos) (Arg i) = true -> eps pos pc (Out i).
(** In proofs; for bip32/path.go:22, 25, bip32/reg_ver_bytes.go:75. *)
Inductive edge : nat * nat -> nat * nat -> Prop :=
| e_eps pc pc' pos : eps pos pc pc' -> edge (pc, pos) (pc', pos)
| e_rune pc i pos c w : nth_error p pc = Some i -> is_rune (Op i) = true -> rune_at s pos c w -> MatchRune i c = Ret true ->
    edge (pc, pos) (Out i, pos + w)%nat.
(** In proofs; for bip32/path.go:22, 25, bip32/reg_ver_bytes.go:75. *)
Definition final (c : nat * nat) : Prop := exists i, nth_error p (fst c) = Some i /\ Op i = InstMatch.
(** A run that ends in InstMatch. *)
(** In proofs; for bip32/path.go:22, 25, bip32/reg_ver_bytes.go:75. *)
Inductive acc : nat * nat -> Prop :=
| a_match c : final c -> acc c
| a_step c c' : edge c c' -> acc c' -> acc c.
(** In proofs; for bip32/path.go:22, 25, bip32/reg_ver_bytes.go:75. *)
Inductive reach : nat * nat -> nat * nat -> Prop :=
| r_refl c : reach c c
| r_step c c' c'' : reach c c' -> edge c' c'' -> reach c c''.
Lemma reach_acc c c' : reach c c' -> acc c' -> acc c.
Proof. induction 1; [easy|]. intros A. apply IHreach. eapply a_step; eassumption. Qed.

(** In proofs; for bip32/path.go:22, 25, bip32/reg_ver_bytes.go:75. *)
Definition inside (c : nat * nat) : Prop := tgt (fst c) /\ (snd c <= length s)%nat.
Lemma eps_inside pos pc pc' : wf -> eps pos pc pc' -> tgt pc'.
Proof.
  intros W E. inversion E as [? i Hi Ho|? i Hi Ho|? i Hi Ho]; subst; destruct (W _ _ Hi) as (_ & T & _).
  - destruct Ho as [Ho|[Ho|Ho]]; rewrite Ho in T; tauto.
  - rewrite Ho in T; tauto.
  - rewrite Ho in T; tauto.
Qed.
Lemma edge_inside c c' : wf -> (snd c <= length s)%nat -> edge c c' -> inside c'.
Proof.
  intros W L E. inversion E as [pc pc' pos He|pc i pos r w Hi Ho Hr Hm]; subst; cbn [snd] in *.
  - split; [eapply eps_inside; eassumption|exact L].
  - destruct (W _ _ Hi) as (_ & T & _). destruct (rune_at_facts _ _ _ _ Hr) as [[_ B] _]. split; [|exact B].
    cbn [fst]. destruct (Op i); try discriminate; exact T.
Qed.

(** A set of configurations closed under execution without a final one contains no accepting one. *)
Lemma closed_no_acc (V : nat * nat -> Prop) : (forall c c', V c -> edge c c' -> V c') -> (forall c, V c -> ~ final c) -> forall c, V c -> ~ acc c.
Proof. intros C F c Hc A. revert Hc. induction A as [c Hf|c c' E A IH]; intros Hc; [exact (F c Hc Hf)|]. apply IH. exact (C c c' Hc E). Qed.

(** ** Backtracking *)

Hypothesis W : wf.
Let e := length s.
Let n := length p.
Let N := (n * S e)%nat.
(** In proofs; for bip32/path.go:22, 25, bip32/reg_ver_bytes.go:75. *)
Definition key (c : nat * nat) : nat := (fst c * S e + snd c)%nat.
(** In proofs; for bip32/path.go:22, 25, bip32/reg_ver_bytes.go:75. *)
Definition vis (v : Z) (c : nat * nat) : Prop := Z.testbit v (Z.of_nat (key c)) = true.

Lemma key_inj c c' : (snd c <= e)%nat -> (snd c' <= e)%nat -> key c = key c' -> c = c'.
Proof.
  destruct c as [a b], c' as [a' b']. unfold key. cbn [fst snd]. intros H H' E.
  assert (a = a').
  { apply Nat.le_antisymm; apply Nat.nlt_ge; intros L.
    - assert ((S a') * S e <= a * S e)%nat by (apply Nat.mul_le_mono_r; lia). lia.
    - assert ((S a) * S e <= a' * S e)%nat by (apply Nat.mul_le_mono_r; lia). lia. }
  subst. f_equal. lia.
Qed.
Lemma key_lt c : inside c -> (key c < N)%nat.
Proof.
  intros [[_ (j & Hj & _)] L]. unfold key, N, n. assert (fst c < length p)%nat by (apply nth_error_Some; congruence).
  assert ((S (fst c)) * S e <= length p * S e)%nat by (apply Nat.mul_le_mono_r; lia). fold e in L. lia.
Qed.

Lemma shouldVisit_ok v c : inside c -> shouldVisit n e v (fst c) (Z.of_nat (snd c)) =
  if Z.testbit v (Z.of_nat (key c)) then Ret (false, v) else Ret (true, Z.setbit v (Z.of_nat (key c))).
Proof.
  intros H. pose proof (key_lt c H) as K. unfold shouldVisit. cbv zeta.
  replace (Z.of_nat (fst c) * (Z.of_nat e + 1) + Z.of_nat (snd c)) with (Z.of_nat (key c)) by (unfold key; lia).
  replace (Z.of_nat n * (Z.of_nat e + 1)) with (Z.of_nat N) by (unfold N; lia).
  replace ((Z.of_nat (key c) <? 0) || ((Z.of_nat N + 31) / 32 <=? Z.of_nat (key c) / 32)) with false; [reflexivity|].
  symmetry. apply Bool.orb_false_intro; [lia|]. apply Z.leb_gt.
  apply Z.div_lt_upper_bound; [lia|].
  pose proof (Z.mul_div_le (Z.of_nat N + 31) 32 ltac:(lia)). pose proof (Z.mod_pos_bound (Z.of_nat N + 31) 32 ltac:(lia)).
  pose proof (Z.div_mod (Z.of_nat N + 31) 32 ltac:(lia)). lia.
Qed.

(** number of pairs not yet visited *)
(** In proofs; for bip32/path.go:22, 25, bip32/reg_ver_bytes.go:75. *)
Definition unv (v : Z) : nat := length (filter (fun k => negb (Z.testbit v (Z.of_nat k))) (seq 0 N)).
Lemma unv_le v : (unv v <= N)%nat.
Proof.
  unfold unv. rewrite <- (seq_length N 0) at 2. generalize (seq 0 N). intros l. induction l as [|x l IH]; cbn; [lia|].
  destruct (Z.testbit v (Z.of_nat x)); cbn; lia.
Qed.
Lemma unv_set v k : (k < N)%nat -> Z.testbit v (Z.of_nat k) = false -> (unv (Z.setbit v (Z.of_nat k)) < unv v)%nat.
Proof.
  intros K B. unfold unv. assert (Hin : In k (seq 0 N)) by (apply in_seq; lia). revert Hin. generalize (seq 0 N). intros l.
  assert (Q : forall j, Z.testbit (Z.setbit v (Z.of_nat k)) (Z.of_nat j) = (j =? k)%nat || Z.testbit v (Z.of_nat j)).
  { intros j. rewrite Z.setbit_eqb by lia. f_equal. destruct (Nat.eqb_spec j k); lia. }
  assert (Le : forall l, (length (filter (fun k0 => negb (Z.testbit (Z.setbit v (Z.of_nat k)) (Z.of_nat k0))) l) <=
                      length (filter (fun k0 => negb (Z.testbit v (Z.of_nat k0))) l))%nat).
  { induction l0 as [|x l0 IH]; [cbn; lia|]. cbn. rewrite Q. destruct (x =? k)%nat, (Z.testbit v (Z.of_nat x)); cbn; lia. }
  induction l as [|x l IH]; [easy|]. intros Hin. cbn. rewrite Q. destruct (Nat.eqb_spec x k) as [->|X].
  - rewrite B. cbn. specialize (Le l). lia.
  - destruct Hin as [->|Hin]; [easy|]. specialize (IH Hin). cbn. destruct (Z.testbit v (Z.of_nat x)); cbn; lia.
Qed.
Lemma vis_set v c c' : (snd c <= e)%nat -> (snd c' <= e)%nat -> vis (Z.setbit v (Z.of_nat (key c))) c' <-> c' = c \/ vis v c'.
Proof.
  intros H H'. unfold vis. rewrite Z.setbit_eqb by lia. rewrite Bool.orb_true_iff. split.
  - intros [Q|Q]; [left|right; exact Q]. apply key_inj; [exact H'|exact H|lia].
  - intros [->|Q]; [left; lia|right; exact Q].
Qed.

(** What a job, and what the label, still has to look at. *)
(** In proofs; for bip32/path.go:22, 25, bip32/reg_ver_bytes.go:75. *)
Definition owes (pc : nat) (arg : bool) (pos : Z) (c : nat * nat) : Prop :=
  if arg then exists i, nth_error p pc = Some i /\ Op i = InstAlt /\ c = (Arg i, Z.to_nat pos)
  else edge (pc, Z.to_nat pos) c.
(** In proofs; for bip32/path.go:22, 25, bip32/reg_ver_bytes.go:75. *)
Definition label_owes (l : at_label) (c : nat * nat) : Prop :=
  match l with AtLoop => False | AtCheck pc pos _ => c = (pc, Z.to_nat pos) | AtSkip pc pos arg => owes pc arg pos c end.
(** In proofs; for bip32/path.go:22, 25, bip32/reg_ver_bytes.go:75. *)
Definition jobs_owe (jobs : list job) (c : nat * nat) : Prop := exists pc arg pos, In (pc, arg, pos) jobs /\ owes pc arg pos c.
(** In proofs; for bip32/path.go:22, 25, bip32/reg_ver_bytes.go:75. *)
Definition fresh (jobs : list job) (l : at_label) (c : nat * nat) : Prop :=
  (exists pc pos, In (pc, false, pos) jobs /\ c = (pc, Z.to_nat pos)) \/ (exists pc pos, l = AtSkip pc pos false /\ c = (pc, Z.to_nat pos)).
(** Jobs and labels are sensible; L: number of capture registers. *)
(** In proofs; for bip32/path.go:22, 25, bip32/reg_ver_bytes.go:75. *)
Definition entry_ok (v : Z) (root : nat * nat) (L : nat) (pc : nat) (arg : bool) (pos : Z) : Prop :=
  if arg then exists i, nth_error p pc = Some i /\
       (Op i = InstAlt /\ 0 <= pos <= Z.of_nat e /\ reach root (pc, Z.to_nat pos) \/ Op i = InstCapture /\ (Arg i < L)%nat)
  else 0 <= pos /\ inside (pc, Z.to_nat pos) /\ reach root (pc, Z.to_nat pos).
(** In proofs; for bip32/path.go:22, 25, bip32/reg_ver_bytes.go:75. *)
Definition label_ok (v : Z) (root : nat * nat) (L : nat) (l : at_label) : Prop :=
  match l with
  | AtLoop => True
  | AtCheck pc pos arg => arg = false /\ 0 <= pos /\ inside (pc, Z.to_nat pos) /\ reach root (pc, Z.to_nat pos)
  | AtSkip pc pos arg => entry_ok v root L pc arg pos
  end.
(** In proofs; for bip32/path.go:22, 25, bip32/reg_ver_bytes.go:75. *)
Definition jobs_ok (v : Z) (root : nat * nat) (L : nat) (jobs : list job) : Prop :=
  forall pc arg pos, In (pc, arg, pos) jobs -> entry_ok v root L pc arg pos.
(** In proofs; for bip32/path.go:22, 25, bip32/reg_ver_bytes.go:75. *)
Definition vis_ok (v : Z) (jobs : list job) (l : at_label) : Prop :=
  (forall c c', inside c -> vis v c -> edge c c' -> vis v c' \/ jobs_owe jobs c' \/ label_owes l c') /\
  (forall c, inside c -> vis v c -> final c -> fresh jobs l c).
(** In proofs; for bip32/path.go:22, 25, bip32/reg_ver_bytes.go:75. *)
Definition weight (arg : bool) : nat := if arg then 3%nat else 6%nat.
(** In proofs; for bip32/path.go:22, 25, bip32/reg_ver_bytes.go:75. *)
Definition jobs_weight (jobs : list job) : nat := fold_right (fun (j : job) a => weight (snd (fst j)) + a)%nat O jobs.
Lemma jobs_weight_cons pc arg pos jobs : jobs_weight ((pc, arg, pos) :: jobs) = (weight arg + jobs_weight jobs)%nat.
Proof. reflexivity. Qed.
(** In proofs; for bip32/path.go:22, 25, bip32/reg_ver_bytes.go:75. *)
Definition label_weight (l : at_label) : nat := match l with AtLoop => 1 | AtCheck _ _ _ => 2 | AtSkip _ _ arg => weight arg end.
(** In proofs; for bip32/path.go:22, 25, bip32/reg_ver_bytes.go:75. *)
Definition caps_ok (L : nat) (b : bitState) : Prop := length (b_cap b) = L /\ length (b_matchcap b) = L /\ L <> 1%nat.

(** In proofs; for bip32/path.go:22, 25, bip32/reg_ver_bytes.go:75. *)
Definition result_ok (root : nat * nat) (L : nat) (v : Z) (jobs : list job) (l : at_label) (r : outcome (bool * bitState)) : Prop :=
  exists ok b', r = Ret (ok, b') /\ caps_ok L b' /\
  (ok = true -> acc root) /\
  (ok = false -> (forall c, vis v c -> vis (visited b') c) /\ vis_ok (visited b') [] AtLoop).

Lemma try_ok root L : forall fuel b jobs l,
  (10 * unv (visited b) + jobs_weight jobs + label_weight l < fuel)%nat ->
  caps_ok L b -> jobs_ok (visited b) root L jobs -> label_ok (visited b) root L l -> vis_ok (visited b) jobs l ->
  result_ok root L (visited b) jobs l (tryBacktrack fuel p s b jobs l).
Proof.
  induction fuel as [|fuel IH]; intros b jobs l F HC HJ HL HV; [lia|].
  cbn [tryBacktrack]. destruct l as [|pc pos arg|pc pos arg].
  - (* loop *)
    destruct jobs as [|[[pc arg] pos] jobs].
    { exists false, b. split; [reflexivity|]. split; [exact HC|]. split; [discriminate|]. intros _. split; [intros c H; exact H|exact HV]. }
    apply IH; try assumption.
    + rewrite jobs_weight_cons in F. cbn [label_weight] in *. lia.
    + intros pc' arg' pos' H. apply HJ. right. exact H.
    + apply HJ. left. reflexivity.
    + destruct HV as [V1 V2]. split.
      * intros c c' Hc Hv E. destruct (V1 c c' Hc Hv E) as [H|[(pc' & arg' & pos' & [H|H] & O)|H]]; [left; exact H| |right; left|destruct H].
        -- injection H as <- <- <-. right; right. exact O.
        -- exists pc', arg', pos'. split; assumption.
      * intros c Hc Hv Hf. destruct (V2 c Hc Hv Hf) as [(pc' & pos' & [H|H] & ->)|(pc' & pos' & H & _)]; [| |discriminate].
        -- injection H as -> -> ->. right. exists pc', pos'. split; reflexivity.
        -- left. exists pc', pos'. split; [exact H|reflexivity].
  - (* check *)
    destruct HL as (-> & P0 & Hin & Hr).
    replace (length p) with n by reflexivity. replace (length s) with e by reflexivity.
    pose proof (shouldVisit_ok (visited b) (pc, Z.to_nat pos) Hin) as SV. cbn [fst snd] in SV. rewrite Z2Nat.id in SV by exact P0. rewrite SV. clear SV.
    destruct (Z.testbit (visited b) (Z.of_nat (key (pc, Z.to_nat pos)))) eqn:Ev; cbn [bind].
    + apply IH; try assumption.
      * cbn [label_weight] in *. lia.
      * exact I.
      * destruct HV as [V1 V2]. split.
        -- intros c c' Hc Hv E. destruct (V1 c c' Hc Hv E) as [H|[H|H]]; [left; exact H|right; left; exact H|]. cbn in H. subst c'. left. exact Ev.
        -- intros c Hc Hv Hf. destruct (V2 c Hc Hv Hf) as [H|(? & ? & H & _)]; [left; exact H|discriminate].
    + pose proof (unv_set (visited b) (key (pc, Z.to_nat pos)) (key_lt _ Hin) Ev) as U.
      set (v' := Z.setbit (visited b) (Z.of_nat (key (pc, Z.to_nat pos)))) in *.
      assert (VS : forall c, (snd c <= e)%nat -> vis v' c <-> c = (pc, Z.to_nat pos) \/ vis (visited b) c).
      { intros c Hc. apply vis_set; [apply Hin|exact Hc]. }
      assert (G : result_ok root L v' jobs (AtSkip pc pos false) (tryBacktrack fuel p s (mkBits v' (b_cap b) (b_matchcap b)) jobs (AtSkip pc pos false))).
      { apply (IH (mkBits v' (b_cap b) (b_matchcap b))); cbn [visited].
        - cbn [label_weight weight] in *. lia.
        - exact HC.
        - exact HJ.
        - cbn. repeat split; assumption || apply Hin.
        - destruct HV as [V1 V2]. split.
          + intros c c' Hc Hv E. destruct (edge_inside c c' W (proj2 Hc) E) as [_ Lc'].
            apply VS in Hv; [|apply Hc]. destruct Hv as [->|Hv]; [right; right; exact E|].
            destruct (V1 c c' Hc Hv E) as [H|[H|H]].
            * left. apply VS; [exact Lc'|right; exact H].
            * right; left; exact H.
            * cbn in H. left. apply VS; [exact Lc'|left; exact H].
          + intros c Hc Hv Hf. apply VS in Hv; [|apply Hc]. destruct Hv as [->|Hv].
            * right. exists pc, pos. split; reflexivity.
            * destruct (V2 c Hc Hv Hf) as [H|(? & ? & H & _)]; [left; exact H|discriminate]. }
      destruct G as (ok & b' & E & C & A & B). exists ok, b'. split; [exact E|]. split; [exact C|]. split; [exact A|].
      intros H. destruct (B H) as [B1 B2]. split; [|exact B2]. intros c Hc. apply B1. unfold vis, v' in *. rewrite Z.setbit_eqb by lia. rewrite Hc. apply Bool.orb_true_r.
  - (* skip *)
    destruct arg.
    + destruct HL as (i & Hi & [(Ho & P0 & Hr)|(Ho & HA)]); rewrite (get_some _ _ _ Hi); cbn [bind]; rewrite Ho.
      * destruct (W _ _ Hi) as (_ & T & _). rewrite Ho in T.
        assert (E : edge (pc, Z.to_nat pos) (Arg i, Z.to_nat pos)) by (apply e_eps; apply (e_arg _ _ _ Hi Ho)).
        apply IH; try assumption.
        -- cbn [label_weight weight] in *. lia.
        -- split; [reflexivity|]. split; [lia|]. split; [split; [apply T|cbn [snd]; fold e; lia]|]. eapply r_step; eassumption.
        -- destruct HV as [V1 V2]. split.
           ++ intros c c' Hc Hv Ee. destruct (V1 c c' Hc Hv Ee) as [H|[H|H]]; [left; exact H|right; left; exact H|].
              destruct H as (i' & Hi' & _ & ->). right; right. cbn. congruence.
           ++ intros c Hc Hv Hf. destruct (V2 c Hc Hv Hf) as [H|(? & ? & H & _)]; [left; exact H|discriminate].
      * destruct (put_some (b_cap b) (Arg i) pos) as (c' & Ep & Lc & _). { destruct HC as [-> _]. exact HA. }
        rewrite Ep. cbn [bind].
        apply (IH (mkBits (visited b) c' (b_matchcap b))); cbn [visited]; try assumption.
        -- cbn [label_weight weight] in *. lia.
        -- destruct HC as (C1 & C2 & C3). repeat split; cbn; try assumption. congruence.
        -- exact I.
        -- destruct HV as [V1 V2]. split.
           ++ intros c c1 Hc Hv Ee. destruct (V1 c c1 Hc Hv Ee) as [H|[H|H]]; [left; exact H|right; left; exact H|].
              destruct H as (i' & Hi' & Ho' & _). rewrite Hi in Hi'. injection Hi' as <-. congruence.
           ++ intros c Hc Hv Hf. destruct (V2 c Hc Hv Hf) as [H|(? & ? & H & _)]; [left; exact H|discriminate].
    + destruct HL as (P0 & Hin & Hr). pose proof Hin as [[_ (i & Hi & Nf)] Le]. cbn [fst snd] in Hi, Le. fold e in Le.
      destruct (W _ _ Hi) as (Nam & T & Rn). rewrite (get_some _ _ _ Hi); cbn [bind].
      assert (Cedge : forall c', edge (pc, Z.to_nat pos) c' ->
         Op i = InstAlt /\ (c' = (Out i, Z.to_nat pos) \/ c' = (Arg i, Z.to_nat pos)) \/
         (Op i = InstCapture \/ Op i = InstNop) /\ c' = (Out i, Z.to_nat pos) \/
         Op i = InstEmptyWidth /\ flag_match (context s (Z.to_nat pos)) (Arg i) = true /\ c' = (Out i, Z.to_nat pos) \/
         is_rune (Op i) = true /\ exists r w, rune_at s (Z.to_nat pos) r w /\ MatchRune i r = Ret true /\ c' = (Out i, Z.to_nat pos + w)%nat).
      { intros c' E. inversion E as [? ? ? He|? i' ? r w Hi' Ho' Hr' Hm']; subst.
        - inversion He as [? i' Hi' Ho'|? i' Hi' Ho'|? i' Hi' Ho' Hf']; subst; rewrite Hi in Hi'; injection Hi' as <-.
          + destruct Ho' as [X|[X|X]]; [left|right; left|right; left]; tauto.
          + left. tauto.
          + right; right; left. tauto.
        - rewrite Hi in Hi'; injection Hi' as <-. right; right; right. split; [exact Ho'|]. exists r, w. tauto. }
      (* leaving (pc,pos) behind when it owes nothing any more, or one configuration *)
      assert (Drop : ~ final (pc, Z.to_nat pos) -> (forall c', ~ edge (pc, Z.to_nat pos) c') -> vis_ok (visited b) jobs AtLoop).
      { intros NF NE. destruct HV as [V1 V2]. split.
        - intros c c' Hc Hv Ee. destruct (V1 c c' Hc Hv Ee) as [H|[H|H]]; [left; exact H|right; left; exact H|elim (NE _ H)].
        - intros c Hc Hv Hf. destruct (V2 c Hc Hv Hf) as [H|(pc' & pos' & H & ->)]; [left; exact H|]. injection H as <- <-. contradiction. }
      assert (Go : forall pc' pos', 0 <= pos' -> ~ final (pc, Z.to_nat pos) -> (forall c', edge (pc, Z.to_nat pos) c' -> c' = (pc', Z.to_nat pos')) ->
         vis_ok (visited b) jobs (AtCheck pc' pos' false)).
      { intros pc' pos' _ NF NE. destruct HV as [V1 V2]. split.
        - intros c c' Hc Hv Ee. destruct (V1 c c' Hc Hv Ee) as [H|[H|H]]; [left; exact H|right; left; exact H|right; right; exact (NE _ H)].
        - intros c Hc Hv Hf. destruct (V2 c Hc Hv Hf) as [H|(pc1 & pos1 & H & ->)]; [left; exact H|]. injection H as <- <-. contradiction. }
      assert (NF : Op i <> InstMatch -> ~ final (pc, Z.to_nat pos)).
      { intros Q (i' & Hi' & Ho'). cbn [fst] in Hi'. congruence. }
      assert (RuneGo : is_rune (Op i) = true -> tgt (Out i) -> result_ok root L (visited b) jobs (AtSkip pc pos false)
        (let (r, width) := step s (Z.to_nat pos) in
         let! m := MatchRune i r in
         if m then tryBacktrack fuel p s b jobs (AtCheck (Out i) (pos + Z.of_nat width) false) else tryBacktrack fuel p s b jobs AtLoop)).
      { intros Ho To. destruct (Rn Ho) as (f & Hf & Hend).
        assert (NFr : ~ final (pc, Z.to_nat pos)) by (apply NF; intros Q; rewrite Q in Ho; discriminate).
        assert (Cr : forall c', edge (pc, Z.to_nat pos) c' -> exists r w, rune_at s (Z.to_nat pos) r w /\ MatchRune i r = Ret true /\ c' = (Out i, Z.to_nat pos + w)%nat).
        { intros c' H. destruct (Cedge _ H) as [(X & _)|[([X|X] & _)|[(X & _)|(_ & X)]]]; try (rewrite X in Ho; discriminate). exact X. }
        destruct (step_cases s (Z.to_nat pos)) as [(r & w & Es & Ra)|[_ Es]]; rewrite Es, Hf; cbn [bind].
        - destruct (f r) eqn:Er.
          + assert (E1 : edge (pc, Z.to_nat pos) (Out i, Z.to_nat (pos + Z.of_nat w))).
            { replace (Z.to_nat (pos + Z.of_nat w)) with (Z.to_nat pos + w)%nat by lia. apply (e_rune _ _ _ r); try assumption. rewrite Hf, Er. reflexivity. }
            apply IH; try assumption.
            * cbn [label_weight weight] in *. lia.
            * split; [reflexivity|]. split; [lia|]. split; [exact (edge_inside _ _ W (proj2 Hin) E1)|]. eapply r_step; eassumption.
            * apply Go; [lia|exact NFr|]. intros c' H. destruct (Cr _ H) as (r' & w' & R' & M' & ->).
              apply rune_at_step in R'. destruct R' as [_ R']. rewrite Es in R'. injection R' as <- <-. f_equal. lia.
          + apply IH; try assumption.
            * cbn [label_weight weight] in *. lia.
            * exact I.
            * apply Drop; [exact NFr|]. intros c' H. destruct (Cr _ H) as (r' & w' & R' & M' & ->).
              apply rune_at_step in R'. destruct R' as [_ R']. rewrite Es in R'. injection R' as <- <-. rewrite Hf in M'. congruence.
        - rewrite Hend. apply IH; try assumption.
          * cbn [label_weight weight] in *. lia.
          * exact I.
          * apply Drop; [exact NFr|]. intros c' H. destruct (Cr _ H) as (r' & w' & R' & M' & ->).
            pose proof (rune_at_facts _ _ _ _ R'). apply rune_at_step in R'. destruct R' as [_ R']. rewrite Es in R'. injection R' as <- <-. lia. }
      destruct (Op i) eqn:Ho; try congruence.
      * (* alt *)
        assert (E1 : edge (pc, Z.to_nat pos) (Out i, Z.to_nat pos)) by (apply e_eps; apply (e_out _ _ _ Hi); tauto).
        apply IH; try assumption.
        -- rewrite jobs_weight_cons. cbn [label_weight weight] in *. lia.
        -- intros pc' arg' pos' [H|H]; [|apply HJ; exact H]. injection H as <- <- <-. exists i. split; [exact Hi|]. left. repeat split; try assumption; lia.
        -- split; [reflexivity|]. split; [exact P0|]. split; [split; [apply T|exact Le]|]. eapply r_step; eassumption.
        -- destruct HV as [V1 V2]. split.
           ++ intros c c' Hc Hv Ee. destruct (V1 c c' Hc Hv Ee) as [H|[(pc' & arg' & pos' & H & O)|H]]; [left; exact H| |].
              ** right; left. exists pc', arg', pos'. split; [right; exact H|exact O].
              ** destruct (Cedge _ H) as [(_ & [-> | ->])|[([X|X] & _)|[(X & _)|(X & _)]]]; try discriminate.
                 --- right; right. reflexivity.
                 --- right; left. exists pc, true, pos. split; [left; reflexivity|]. exists i. tauto.
           ++ intros c Hc Hv Hf. destruct (V2 c Hc Hv Hf) as [(pc' & pos' & H & ->)|(pc' & pos' & H & ->)].
              ** left. exists pc', pos'. split; [right; exact H|reflexivity].
              ** injection H as <- <-. elim (NF ltac:(discriminate) Hf).
      * (* capture *)
        assert (E1 : edge (pc, Z.to_nat pos) (Out i, Z.to_nat pos)) by (apply e_eps; apply (e_out _ _ _ Hi); tauto).
        assert (GoC : vis_ok (visited b) jobs (AtCheck (Out i) pos false)).
        { apply Go; [exact P0|apply NF; discriminate|]. intros c' H. destruct (Cedge _ H) as [(X & _)|[(_ & ->)|[(X & _)|(X & _)]]]; try discriminate. reflexivity. }
        assert (LO : label_ok (visited b) root L (AtCheck (Out i) pos false)).
        { split; [reflexivity|]. split; [exact P0|]. split; [split; [apply T|exact Le]|]. eapply r_step; eassumption. }
        destruct (Arg i <? length (b_cap b))%nat eqn:Ea.
        -- assert (Al : (Arg i < length (b_cap b))%nat) by (apply Nat.ltb_lt; exact Ea).
           destruct (nth_error (b_cap b) (Arg i)) as [old|] eqn:Eo; [|apply nth_error_None in Eo; lia].
           rewrite (get_some _ _ _ Eo). cbn [bind].
           destruct (put_some (b_cap b) (Arg i) pos Al) as (c' & Ep & Lc & _). rewrite Ep. cbn [bind].
           apply (IH (mkBits (visited b) c' (b_matchcap b))); cbn [visited]; try assumption.
           ++ rewrite jobs_weight_cons. cbn [label_weight weight] in *. lia.
           ++ destruct HC as (C1 & C2 & C3). repeat split; cbn; try assumption. congruence.
           ++ intros pc' arg' pos' [H|H]; [|apply HJ; exact H]. injection H as <- <- <-. exists i. split; [exact Hi|]. right. split; [exact Ho|]. destruct HC as [<- _]. exact Al.
           ++ destruct GoC as [V1 V2]. split.
              ** intros c c1 Hc Hv Ee. destruct (V1 c c1 Hc Hv Ee) as [H|[(pc' & arg' & pos' & H & O)|H]]; [left; exact H| |right; right; exact H].
                 right; left. exists pc', arg', pos'. split; [right; exact H|exact O].
              ** intros c Hc Hv Hf. destruct (V2 c Hc Hv Hf) as [(pc' & pos' & H & ->)|(pc' & pos' & H & ->)]; [|discriminate].
                 left. exists pc', pos'. split; [right; exact H|reflexivity].
        -- apply IH; try assumption. cbn [label_weight weight] in *. lia.
      * (* empty width *)
        destruct (flag_match (context s (Z.to_nat pos)) (Arg i)) eqn:Ef.
        -- assert (E1 : edge (pc, Z.to_nat pos) (Out i, Z.to_nat pos)) by (apply e_eps; apply (e_empty _ _ _ Hi); tauto).
           apply IH; try assumption.
           ++ cbn [label_weight weight] in *. lia.
           ++ split; [reflexivity|]. split; [exact P0|]. split; [split; [apply T|exact Le]|]. eapply r_step; eassumption.
           ++ apply Go; [exact P0|apply NF; discriminate|]. intros c' H. destruct (Cedge _ H) as [(X & _)|[([X|X] & _)|[(_ & _ & ->)|(X & _)]]]; try discriminate. reflexivity.
        -- apply IH; try assumption.
           ++ cbn [label_weight weight] in *. lia.
           ++ exact I.
           ++ apply Drop; [apply NF; discriminate|]. intros c' H. destruct (Cedge _ H) as [(X & _)|[([X|X] & _)|[(_ & X & _)|(X & _)]]]; discriminate.
      * (* match *)
        assert (A : acc root).
        { apply (reach_acc _ _ Hr). apply a_match. exists i. split; [exact Hi|exact Ho]. }
        destruct (b_cap b) as [|c0 cs] eqn:Ecap.
        { exists true, b. split; [reflexivity|]. split; [exact HC|]. split; [intros _; exact A|discriminate]. }
        rewrite <- Ecap. destruct HC as (C1 & C2 & C3).
        assert (L2 : (1 < length (b_cap b))%nat). { rewrite Ecap in *. cbn [length] in *. lia. }
        replace (1 <? length (b_cap b))%nat with true by (symmetry; apply Nat.ltb_lt; exact L2).
        destruct (put_some (b_cap b) 1 pos L2) as (c' & Ep & Lc & _). rewrite Ep. cbn [bind].
        destruct (nth_error (b_matchcap b) 1) as [old|] eqn:Eo; [|apply nth_error_None in Eo; lia].
        rewrite (get_some _ _ _ Eo). cbn [bind].
        eexists true, _. split; [reflexivity|]. split; [|split; [intros _; exact A|discriminate]].
        repeat split; cbn; try assumption; [congruence|]. destruct (old =? -1); congruence.
      * (* nop *)
        assert (E1 : edge (pc, Z.to_nat pos) (Out i, Z.to_nat pos)) by (apply e_eps; apply (e_out _ _ _ Hi); tauto).
        apply IH; try assumption.
        -- cbn [label_weight weight] in *. lia.
        -- split; [reflexivity|]. split; [exact P0|]. split; [split; [apply T|exact Le]|]. eapply r_step; eassumption.
        -- apply Go; [exact P0|apply NF; discriminate|]. intros c' H. destruct (Cedge _ H) as [(X & _)|[(_ & ->)|[(X & _)|(X & _)]]]; try discriminate. reflexivity.
      * exact (RuneGo eq_refl T).
      * exact (RuneGo eq_refl T).
Qed.

Lemma vis_closed v : vis_ok v [] AtLoop -> forall c, inside c -> vis v c -> ~ acc c.
Proof.
  intros [V1 V2] c Hc Hv. apply (closed_no_acc (fun c => inside c /\ vis v c)); [| |split; assumption].
  - intros c1 c2 [H1 H2] E. split; [exact (edge_inside _ _ W (proj2 H1) E)|].
    destruct (V1 c1 c2 H1 H2 E) as [H|[(? & ? & ? & [] & _)|[]]]. exact H.
  - intros c1 [H1 H2] Hf. destruct (V2 c1 H1 H2 Hf) as [(? & ? & [] & _)|(? & ? & H & _)]. discriminate.
Qed.

Lemma try_at_ok L b pc pos : caps_ok L b -> vis_ok (visited b) [] AtLoop -> inside (pc, pos) ->
  exists ok b', try_at p s b pc pos = Ret (ok, b') /\ caps_ok L b' /\ (ok = true <-> acc (pc, pos)) /\ (ok = false -> vis_ok (visited b') [] AtLoop).
Proof.
  intros HC HV Hin. pose proof Hin as [[_ (i & Hi & Nf)] Le]. cbn [fst snd] in Hi, Le. unfold try_at. cbv zeta.
  rewrite (get_some _ _ _ Hi). cbn [bind].
  change (length p) with n. change (length s) with e.
  pose proof (shouldVisit_ok (visited b) (pc, pos) Hin) as SV. cbn [fst snd] in SV.
  set (fuel := (10 * (n * S e) + 20)%nat).
  assert (Same : forall A (x y : A), match Op i with InstFail => x | _ => y end = y) by (destruct (Op i); congruence).
  rewrite Same. rewrite SV. clear SV Same.
  assert (UL : (10 * unv (visited b) < fuel - 10)%nat). { pose proof (unv_le (visited b)). unfold fuel, N in *. lia. }
  destruct (Z.testbit (visited b) (Z.of_nat (key (pc, pos)))) eqn:Ev; cbn [bind].
  - replace fuel with (S (fuel - 1)) by (unfold fuel; lia). cbn [tryBacktrack].
    exists false, b. split; [reflexivity|]. split; [exact HC|]. split; [|intros _; exact HV].
    split; [discriminate|]. intros A. elim (vis_closed _ HV _ Hin Ev A).
  - set (v' := Z.setbit (visited b) (Z.of_nat (key (pc, pos)))).
    assert (VS : forall c, (snd c <= e)%nat -> vis v' c <-> c = (pc, pos) \/ vis (visited b) c).
    { intros c Hc. apply vis_set; [exact Le|exact Hc]. }
    pose proof (unv_set (visited b) (key (pc, pos)) (key_lt _ Hin) Ev) as U. fold v' in U.
    destruct (try_ok (pc, pos) L fuel (mkBits v' (b_cap b) (b_matchcap b)) [(pc, false, Z.of_nat pos)] AtLoop) as (ok & b' & E & C & A & B); cbn [visited].
    + rewrite jobs_weight_cons. cbn [jobs_weight fold_right label_weight weight]. lia.
    + exact HC.
    + intros pc' arg' pos' [H|[]]. injection H as <- <- <-. cbn. rewrite Nat2Z.id. split; [lia|]. split; [exact Hin|apply r_refl].
    + exact I.
    + destruct HV as [V1 V2]. split.
      * intros c c' Hc Hv Ee. apply VS in Hv; [|apply Hc]. destruct Hv as [->|Hv].
        -- right; left. exists pc, false, (Z.of_nat pos). split; [left; reflexivity|]. cbn. rewrite Nat2Z.id. exact Ee.
        -- left. apply VS; [apply (edge_inside _ _ W (proj2 Hc) Ee)|]. right. destruct (V1 c c' Hc Hv Ee) as [H|[(? & ? & ? & [] & _)|[]]]. exact H.
      * intros c Hc Hv Hf. apply VS in Hv; [|apply Hc]. destruct Hv as [->|Hv].
        -- left. exists pc, (Z.of_nat pos). split; [left; reflexivity|]. rewrite Nat2Z.id. reflexivity.
        -- destruct (V2 c Hc Hv Hf) as [(? & ? & [] & _)|(? & ? & H & _)]. discriminate.
    + exists ok, b'. split; [exact E|]. split; [exact C|]. split; [|intros H; apply (B H)].
      split; [exact A|]. intros Ha. destruct ok; [reflexivity|]. exfalso. destruct (B eq_refl) as [B1 B2].
      apply (vis_closed _ B2 (pc, pos) Hin); [|exact Ha]. apply B1. cbn [visited]. apply VS; [exact Le|left; reflexivity].
Qed.

(** the positions from [pos] on where a rune starts, and the end *)
(** In proofs; for bip32/path.go:22, 25, bip32/reg_ver_bytes.go:75. *)
Inductive from (pos : nat) : nat -> Prop :=
| f_0 : from pos pos
| f_S i c w : from pos i -> rune_at s i c w -> from pos (i + w).
Lemma from_le pos i : from pos i -> (pos <= i)%nat.
Proof. clear. induction 1; lia. Qed.
Lemma from_next pos c w i : rune_at s pos c w -> from (pos + w) i -> from pos i.
Proof. intros R. induction 1; [apply (f_S pos pos c w (f_0 pos) R)|]. eapply f_S; eassumption. Qed.
Lemma from_cases pos i : from pos i -> i = pos \/ exists c w, rune_at s pos c w /\ from (pos + w) i.
Proof.
  induction 1 as [|i c w F IH R]; [left; reflexivity|]. right. destruct IH as [->|(c' & w' & R' & F')].
  - exists c, w. split; [exact R|apply f_0].
  - exists c', w'. split; [exact R'|]. eapply f_S; eassumption.
Qed.
Lemma set_start_length c pos : length (set_start c pos) = length c.
Proof. destruct c; reflexivity. Qed.

Lemma backtrack_from_ok L start : tgt start -> forall fuel b pos, (length s - pos < fuel)%nat -> caps_ok L b -> vis_ok (visited b) [] AtLoop ->
  (pos <= length s)%nat ->
  exists o, backtrack_from fuel p start s b pos = Ret o /\ (o <> None <-> exists i, from pos i /\ acc (start, i)).
Proof.
  intros T. induction fuel as [|fuel IH]; intros b pos F HC HV Le; [lia|]. cbn [backtrack_from].
  replace (pos <=? length s)%nat with true by (symmetry; apply Nat.leb_le; exact Le).
  destruct (try_at_ok L (mkBits (visited b) (set_start (b_cap b) pos) (b_matchcap b)) start pos) as (ok & b' & E & C & A & B).
  { destruct HC as (C1 & C2 & C3). repeat split; cbn; rewrite ?set_start_length; assumption. }
  { exact HV. }
  { split; assumption. }
  rewrite E. cbn [bind]. destruct ok.
  - eexists. split; [reflexivity|]. split; [|discriminate]. intros _. exists pos. split; [apply f_0|]. apply A. reflexivity.
  - assert (NA : ~ acc (start, pos)) by (intros H; apply A in H; discriminate).
    destruct (step_cases s pos) as [(c & w & Es & R)|[Lp Es]]; rewrite Es; cbn [snd].
    + pose proof (rune_at_facts _ _ _ _ R) as [[W1 W2] _]. replace (w =? 0)%nat with false by (symmetry; apply Nat.eqb_neq; lia).
      destruct (IH b' (pos + w)%nat) as (o & Eo & Ho); try assumption; [lia|apply B; reflexivity|].
      exists o. split; [exact Eo|]. rewrite Ho. split; intros (i & Fi & Ai); exists i; split; try exact Ai.
      * eapply from_next; eassumption.
      * destruct (from_cases _ _ Fi) as [->|(c' & w' & R' & F')]; [contradiction|].
        destruct R as [_ R], R' as [_ R']. rewrite R in R'. injection R' as <- <-. exact F'.
    + eexists. split; [reflexivity|]. split; [congruence|]. intros (i & Fi & Ai). exfalso.
      destruct (from_cases _ _ Fi) as [->|(c' & w' & R' & _)]; [contradiction|]. destruct R' as [R' _]. lia.
Qed.

Lemma StartCond_acc : forall fuel pc flag c pos, StartCond fuel p pc flag = Ret c -> acc (pc, pos) ->
  flag_match (context s pos) flag = true -> flag_match (context s pos) c = true.
Proof.
  induction fuel as [|fuel IH]; intros pc flag c pos E A H; [discriminate|]. cbn [StartCond] in E.
  destruct (get p pc) as [i|] eqn:Ei; [|discriminate]. cbn [bind] in E. apply get_inv in Ei.
  destruct (Op i) eqn:Ho; try (injection E as <-; exact H).
  - apply (IH _ _ _ pos E); [|exact H]. inversion A as [? (i' & Hi' & Ho')|? c' Ed A']; subst. { cbn in Hi'. congruence. }
    inversion Ed as [? ? ? He|? i' ? ? ? Hi' Ho']; subst; [|rewrite Hi' in Ei; injection Ei as ->; rewrite Ho in Ho'; discriminate].
    inversion He as [? i' Hi' Ho'|? i' Hi' Ho'|? i' Hi' Ho']; subst; rewrite Hi' in Ei; injection Ei as ->; try congruence; try exact A'.
  - inversion A as [? (i' & Hi' & Ho')|? c' Ed A']; subst. { cbn in Hi'. congruence. }
    inversion Ed as [? ? ? He|? i' ? ? ? Hi' Ho']; subst; [|rewrite Hi' in Ei; injection Ei as ->; rewrite Ho in Ho'; discriminate].
    inversion He as [? i' Hi' Ho'|? i' Hi' Ho'|? i' Hi' Ho' Hf']; subst; rewrite Hi' in Ei; injection Ei as ->.
    + destruct Ho' as [X|[X|X]]; congruence.
    + congruence.
    + apply (IH _ _ _ pos E A'). rewrite flag_lor, H, Hf'. reflexivity.
  - exfalso. inversion A as [? (i' & Hi' & Ho')|? c' Ed A']; subst. { cbn in Hi'. congruence. }
    inversion Ed as [? ? ? He|? i' ? ? ? Hi' Ho']; subst; [|rewrite Hi' in Ei; injection Ei as ->; rewrite Ho in Ho'; discriminate].
    inversion He as [? i' Hi' Ho'|? i' Hi' Ho'|? i' Hi' Ho']; subst; rewrite Hi' in Ei; injection Ei as ->; try congruence. destruct Ho' as [X|[X|X]]; congruence.
  - apply (IH _ _ _ pos E); [|exact H]. inversion A as [? (i' & Hi' & Ho')|? c' Ed A']; subst. { cbn in Hi'. congruence. }
    inversion Ed as [? ? ? He|? i' ? ? ? Hi' Ho']; subst; [|rewrite Hi' in Ei; injection Ei as ->; rewrite Ho in Ho'; discriminate].
    inversion He as [? i' Hi' Ho'|? i' Hi' Ho'|? i' Hi' Ho']; subst; rewrite Hi' in Ei; injection Ei as ->; try congruence; try exact A'.
Qed.
Lemma start_anchored fuel start cond pos : StartCond fuel p start 0 = Ret cond -> (pos <= length s)%nat -> acc (start, pos) ->
  cond <> 255%nat /\ (Nat.testbit cond 2 = true -> pos = O).
Proof.
  intros E Le A. pose proof (StartCond_acc _ _ _ _ pos E A (flag_0 _)) as H. split.
  - intros ->. rewrite flag_255 in H. discriminate.
  - intros B. pose proof (flag_begin _ _ H B) as N1. apply (context_r1_neg s pos Le). exact N1.
Qed.
Lemma from_in pos i : (pos <= length s)%nat -> from pos i -> (i <= length s)%nat.
Proof. intros L. induction 1; [exact L|]. pose proof (rune_at_facts _ _ _ _ H0) as [[_ X] _]. exact X. Qed.

Theorem backtrack_ok fuel start cond pos L : StartCond fuel p start 0 = Ret cond -> tgt start -> (pos <= length s)%nat -> L <> 1%nat ->
  exists o, backtrack p start cond s pos L = Ret o /\ (o <> None <-> exists i, from pos i /\ acc (start, i)).
Proof.
  intros E T Le HL. unfold backtrack.
  destruct (cond =? 255)%nat eqn:E255.
  { apply Nat.eqb_eq in E255. eexists. split; [reflexivity|]. split; [congruence|]. intros (i & F & A).
    destruct (start_anchored _ _ _ _ E (from_in _ _ Le F) A) as [X _]. contradiction. }
  assert (Anch : Nat.testbit cond 2 = true -> forall i, from pos i -> acc (start, i) -> i = O).
  { intros B i F A. apply (start_anchored _ _ _ _ E (from_in _ _ Le F) A). exact B. }
  assert (V0 : vis_ok 0 [] AtLoop). { split; intros c; unfold vis; rewrite Z.bits_0; discriminate. }
  destruct (Nat.testbit cond 2) eqn:B2; cbn [andb].
  - destruct (pos =? 0)%nat eqn:P0; cbn [negb].
    + apply Nat.eqb_eq in P0. subst pos. cbv zeta. cbn [b_cap b_matchcap].
      destruct (try_at_ok L (mkBits 0 (set_start (repeat (-1) L) 0) (repeat (-1) L)) start 0) as (ok & b' & Et & C & A & B).
      { repeat split; cbn; rewrite ?set_start_length, ?repeat_length; trivial. }
      { exact V0. }
      { split; [exact T|cbn; lia]. }
      rewrite Et. cbn [bind]. eexists. split; [reflexivity|]. destruct ok.
      * split; [|discriminate]. intros _. exists O. split; [apply f_0|apply A; reflexivity].
      * split; [congruence|]. intros (i & F & Ai). rewrite (Anch eq_refl i F Ai) in Ai. apply A in Ai. discriminate.
    + eexists. split; [reflexivity|]. split; [congruence|]. intros (i & F & A). pose proof (from_le _ _ F). pose proof (Anch eq_refl i F A).
      apply Nat.eqb_neq in P0. lia.
  - cbv zeta. apply (backtrack_from_ok L start T); [lia| | |exact Le].
    + repeat split; cbn; rewrite ?repeat_length; trivial.
    + exact V0.
Qed.
End Run.
