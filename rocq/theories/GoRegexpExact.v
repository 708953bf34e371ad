(** GoRegexpExact.v - a check of the dispatch tables of a one-pass program, and: where it succeeds, the one-pass engine of
    GoRegexp.v reports exactly the matches (for C108). The check is no part of /repo; it is the hypothesis of the theorem. *)
From Verif Require Import Base BaseFacts GoStr GoStrFacts GoStrLit GoStrLitFacts Bip32 GoCodec GoRegexp SpecRegexp GoRegexpIn GoRegexpRun GoRegexpPike GoRegexpCode GoRegexpComp GoRegexpSimp GoRegexpMain GoRegexpOne GoRegexpSound.
From Coq Require Import ZifyBool ZifyNat ZifyN.

(** ** The check *)
(** The instructions reached from [pc] through InstAlt, InstNop and InstCapture; [None]: not within [fuel] steps. bip32/reg_ver_bytes.go:75 *)
Fixpoint leaves (fuel : nat) (p : list Inst) (pc : nat) : option (list nat) :=
  match fuel with
  | O => None
  | S fuel =>
    match nth_error p pc with
    | None => None
    | Some i =>
      match Op i with
      | InstAlt => match leaves fuel p (Out i), leaves fuel p (Arg i) with Some a, Some b => Some (a ++ b) | _, _ => None end
      | InstNop | InstCapture => leaves fuel p (Out i)
      | InstFail => Some []
      | _ => Some [pc]
      end
    end
  end.
(** The runes of an instruction as pairs of bounds; bip32/reg_ver_bytes.go:75 *)
Definition rune_set (i : Inst) : list Z :=
  match Rune i with
  | [r] => match Op i with InstRune1 => [r; r] | _ => if Nat.odd (Arg i) then [r; r; SimpleFold r; SimpleFold r] else [r; r] end
  | r :: rs => match Op i with InstRune1 => [r; r] | _ => r :: rs end
  | [] => []
  end.
(** No pair of [rs] meets lo..hi; bip32/reg_ver_bytes.go:75 *)
Fixpoint apart (rs : list Z) (lo hi : Z) : bool :=
  match rs with a :: b :: rs => ((b <? lo) || (hi <? a)) && apart rs lo hi | _ => true end.
(** A pair of [rs] holds a..b; bip32/reg_ver_bytes.go:75 *)
Fixpoint holds_pair (rs : list Z) (a b : Z) : bool :=
  match rs with lo :: hi :: rs => ((lo <=? a) && (b <=? hi)) || holds_pair rs a b | _ => false end.
(** Every pair of [rs] is held by a pair of [qs]; bip32/reg_ver_bytes.go:75 *)
Fixpoint covered (rs qs : list Z) : bool :=
  match rs with a :: b :: rs => holds_pair qs a b && covered rs qs | _ => true end.
(** As class_ok of SpecRegexp.v; bip32/reg_ver_bytes.go:75 *)
Fixpoint class_okb (from : Z) (rs : list Z) : bool :=
  match rs with [] => true | [_] => false | lo :: hi :: rs => (from <=? lo) && (lo <=? hi) && class_okb (hi + 1) rs end.
(** Among the leaves of [k]; bip32/reg_ver_bytes.go:75 *)
Definition leads_to (p : list Inst) (k l : nat) : bool :=
  match leaves (S (length p)) p k with Some ls => existsb (Nat.eqb l) ls | None => false end.
(** No run from [l] on reads a rune of lo..hi first; bip32/reg_ver_bytes.go:75 *)
Definition dead_on (p : list Inst) (l : nat) (lo hi : Z) : bool :=
  match nth_error p l with
  | Some i => match Op i with
              | InstRune | InstRune1 => apart (rune_set i) lo hi
              | InstEmptyWidth => Nat.testbit (Arg i) 3
              | _ => false
              end
  | None => false
  end.
(** Runs from [l] on read a rune of [rs] first; bip32/reg_ver_bytes.go:75 *)
Definition reads_in (p : list Inst) (l : nat) (rs : list Z) : bool :=
  match nth_error p l with Some i => is_rune (Op i) && covered (rune_set i) rs | None => false end.
(** The pairs of [rs] with the targets [ks]; bip32/reg_ver_bytes.go:75 *)
Fixpoint pairs_ok (p : list Inst) (ls : list nat) (rs : list Z) (ks : list nat) : bool :=
  match rs, ks with
  | [], [] => true
  | lo :: hi :: rs, k :: ks => forallb (fun l => leads_to p k l || dead_on p l lo hi) ls && pairs_ok p ls rs ks
  | _, _ => false
  end.
(** Where an Alt goes when no pair holds the rune; bip32/reg_ver_bytes.go:75 *)
Definition rest_of (o : oInst) : nat := match Op (o_inst o) with InstAltMatch => Out (o_inst o) | _ => O end.
(** The instructions that may follow without reading; bip32/reg_ver_bytes.go:75 *)
Definition nexts (o : oInst) : list nat :=
  match Op (o_inst o) with
  | InstAlt | InstAltMatch => rest_of o :: o_next o
  | InstMatch | InstFail => []
  | _ => [Out (o_inst o)]
  end.
(** Fewer than [d] steps without reading from [pc] on; bip32/reg_ver_bytes.go:75 *)
Fixpoint short (d : nat) (op : list oInst) (pc : nat) : bool :=
  match d with
  | O => false
  | S d => match nth_error op pc with
           | Some o => is_rune (Op (o_inst o)) || forallb (short d op) (nexts o)
           | None => false
           end
  end.
(** An instruction of the one-pass program against the original; bip32/reg_ver_bytes.go:75 *)
Definition inst_okb (p : list Inst) (pc : nat) (i0 : Inst) (o : oInst) : bool :=
  let i := o_inst o in
  match Op i0 with
  | InstMatch => match Op i with InstMatch => true | _ => false end
  | InstAlt =>
    match leaves (S (length p)) p pc with
    | Some ls => class_okb 0 (Rune i) && pairs_ok p ls (Rune i) (o_next o) &&
                 forallb (fun l => leads_to p (rest_of o) l || reads_in p l (Rune i)) ls
    | None => false
    end
  | InstRune | InstRune1 =>
    ((Arg i =? Arg i0)%nat && (if list_eq_dec Z.eq_dec (Rune i) (Rune i0) then true else false)) ||
    (match Op i0 with InstRune => true | _ => false end && class_okb 0 (Rune i) && covered (rune_set i0) (Rune i))
  | _ => true
  end.
(** The check at the instructions [v], which are to hold all that may follow; bip32/reg_ver_bytes.go:75 *)
Definition part_ok (p : list Inst) (op : list oInst) (v : list nat) : bool :=
  forallb (fun pc => match nth_error p pc, nth_error op pc with
                     | Some i0, Some o => inst_okb p pc i0 o && short (S (length op)) op pc && forallb (fun k => existsb (Nat.eqb k) v) (nexts o)
                     | _, _ => false
                     end) v.
(** The instructions that may follow, collected; bip32/reg_ver_bytes.go:75 *)
Fixpoint collect (fuel : nat) (op : list oInst) (todo v : list nat) : list nat :=
  match fuel, todo with
  | S fuel, pc :: todo =>
    if existsb (Nat.eqb pc) v then collect fuel op todo v
    else collect fuel op (match nth_error op pc with Some o => nexts o | None => [] end ++ todo) (pc :: v)
  | _, _ => v
  end.
(** The check of a compiled pattern; without one-pass program there is nothing to check. bip32/reg_ver_bytes.go:75 *)
Definition tables_ok (R : Regexp) : bool :=
  match re_onepass R with
  | None => true
  | Some op =>
    let v := collect (length op * length op + length op) op [re_start R] [] in
    existsb (Nat.eqb (re_start R)) v && (match re_prefix R with [] => true | _ => existsb (Nat.eqb (re_prefixEnd R)) v end) &&
    part_ok (re_prog R) op v &&
    match nth_error (re_prog R) (re_start R) with Some i => Nat.testbit (Arg i) 2 | None => false end
  end.

(** ** Rune sets *)
Lemma existsb_eqb k v : existsb (Nat.eqb k) v = true <-> In k v.
Proof.
  rewrite existsb_exists. split; [intros (x & I & E)|intros I; exists k; split; [exact I|apply Nat.eqb_refl]]. apply Nat.eqb_eq in E. subst. exact I.
Qed.
Lemma class_okb_ok : forall n rs from, (length rs <= n)%nat -> class_okb from rs = true -> class_ok from rs.
Proof.
  induction n as [|n IH]; intros rs from L H; destruct rs as [|lo [|hi rs]]; cbn in *; try easy; try lia.
  rewrite !Bool.andb_true_iff in H. destruct H as [[A C] D]. split; [lia|]. apply IH; [lia|exact D].
Qed.
Lemma apart_ok lo hi c : forall n rs, (length rs <= n)%nat -> apart rs lo hi = true -> in_class rs c -> lo <= c <= hi -> False.
Proof.
  induction n as [|n IH]; intros rs L H I B; destruct rs as [|a [|b rs]]; cbn in *; try easy; try lia.
  rewrite Bool.andb_true_iff in H. destruct H as [H1 H2]. destruct I as [I|I]; [lia|]. apply (IH rs); try assumption. lia.
Qed.
Lemma holds_ok a b c : forall n rs, (length rs <= n)%nat -> holds_pair rs a b = true -> a <= c <= b -> in_class rs c.
Proof.
  induction n as [|n IH]; intros rs L H I; destruct rs as [|lo [|hi rs]]; cbn in *; try easy; try lia.
  rewrite Bool.orb_true_iff in H. destruct H as [H|H]; [left; lia|right; apply IH; [lia|exact H|exact I]].
Qed.
Lemma covered_ok qs c : forall n rs, (length rs <= n)%nat -> covered rs qs = true -> in_class rs c -> in_class qs c.
Proof.
  induction n as [|n IH]; intros rs L H I; destruct rs as [|a [|b rs]]; cbn in *; try easy; try lia.
  rewrite Bool.andb_true_iff in H. destruct H as [H1 H2]. destruct I as [I|I]; [apply (holds_ok a b c _ _ (le_n _) H1 I)|]. apply (IH rs); try assumption. lia.
Qed.
(** A pair at the index holds the rune; bip32/reg_ver_bytes.go:75 *)
Definition at_pair (rs : list Z) (r : Z) (k : nat) : Prop := exists lo hi, nth_error rs (2 * k) = Some lo /\ nth_error rs (2 * k + 1) = Some hi /\ lo <= r <= hi.
Lemma pairs_pos_at r : forall n rs j k, (length rs <= n)%nat -> pairs_pos rs r j = Some k -> (j <= k)%nat /\ at_pair rs r (k - j).
Proof.
  induction n as [|n IH]; intros rs j k L H; destruct rs as [|lo [|hi rs]]; cbn in L; try lia; try discriminate.
  cbn [pairs_pos] in H. destruct (r <? lo) eqn:E1; [discriminate|]. destruct (r <=? hi) eqn:E2.
  - injection H as <-. split; [lia|]. rewrite Nat.sub_diag. exists lo, hi. repeat split; lia.
  - apply IH in H; [|lia]. destruct H as (A & a & b & H1 & H2 & H3). split; [lia|]. exists a, b.
    replace (2 * (k - j))%nat with (S (S (2 * (k - S j)))) by lia. cbn [nth_error plus]. replace (S (S (2 * (k - S j)) + 1))%nat with (S (S (2 * (k - S j) + 1))) by lia. auto.
Qed.
Lemma binary_at rs r : forall fuel lo hi k, binary_pos fuel rs r lo hi = Ret (Some k) -> at_pair rs r k.
Proof.
  induction fuel as [|fuel IH]; intros lo hi k E; cbn [binary_pos] in E; [discriminate|]. destruct (lo <? hi)%nat; [|discriminate]. cbv zeta in E.
  apply bindr in E as (c & Ec & E). apply get_inv in Ec. destruct (c <=? r) eqn:Q; [|exact (IH _ _ _ E)].
  apply bindr in E as (c1 & Ec1 & E). apply get_inv in Ec1. destruct (r <=? c1) eqn:Q1; [|exact (IH _ _ _ E)].
  injection E as <-. exists c, c1. repeat split; try assumption; lia.
Qed.
Lemma MatchRunePos_at arg rs r k : length rs <> 1%nat -> MatchRunePos arg rs r = Ret (Some k) -> at_pair rs r k.
Proof.
  intros N E. unfold MatchRunePos in E.
  assert (P : forall n, Ret (pairs_pos rs r 0) = Ret (Some k) -> n = length rs -> at_pair rs r k).
  { intros n Q _. apply ret_inj in Q. apply (pairs_pos_at r _ rs O k (le_n _)) in Q. rewrite Nat.sub_0_r in Q. tauto. }
  destruct (length rs) as [|[|[|[|[|[|[|[|[|n]]]]]]]]] eqn:L; try lia; try discriminate; try (exact (binary_at _ _ _ _ _ _ E)); try (exact (P _ E L)); try (exact (P _ E eq_refl)).
  destruct rs as [|lo [|hi [|]]]; cbn in L; try lia. cbn [get nth_error bind] in E. destruct ((lo <=? r) && (r <=? hi)) eqn:Q; [|discriminate]. injection E as <-.
  exists lo, hi. cbn. repeat split; lia.
Qed.
Lemma MatchRunePos_arg arg rs r : length rs <> 1%nat -> MatchRunePos arg rs r = MatchRunePos 0 rs r.
Proof. intros N. unfold MatchRunePos. destruct (length rs) as [|[|n]]; [reflexivity|lia|reflexivity]. Qed.
Lemma at_pair_in rs r k : at_pair rs r k -> in_class rs r.
Proof. intros (lo & hi & A & C & D). apply in_class_idx. exists k, lo, hi. auto. Qed.
Lemma SimpleFold_twice r : SimpleFold (SimpleFold r) = r.
Proof.
  unfold SimpleFold. destruct (Z.leb_spec 65 r), (Z.leb_spec r 90), (Z.leb_spec 97 r), (Z.leb_spec r 122); cbn [andb];
    repeat match goal with |- context [?a <=? ?b] => destruct (Z.leb_spec a b) end; cbn [andb]; lia.
Qed.
Lemma rune_set_ok i c : is_rune (Op i) = true -> MatchRune i c = Ret true -> in_class (rune_set i) c.
Proof.
  intros Ir E. unfold MatchRune in E.
  assert (One : Op i = InstRune1 -> in_class (rune_set i) c).
  { intros O. rewrite O in E. apply bindr in E as (r0 & Er & E). apply get_inv in Er. injection E as E. unfold rune_set. rewrite O.
    destruct (Rune i) as [|r [|r' rs]]; cbn in Er; try discriminate; injection Er as ->; cbn [in_class]; lia. }
  destruct (Op i) eqn:O; try discriminate; [|apply One; reflexivity]. clear One.
  apply bindr in E as (x & Ex & E). destruct x as [k|]; [|discriminate]. clear E. unfold rune_set. rewrite O.
  destruct (Rune i) as [|r [|r' rs]] eqn:Er; [discriminate| |apply (at_pair_in _ _ k), (MatchRunePos_at (Arg i)); [cbn; lia|exact Ex]].
  unfold MatchRunePos in Ex. cbn [length] in Ex. rewrite (get_some [r] 0 r eq_refl) in Ex. cbn [bind] in Ex. destruct (c =? r) eqn:Q.
  { destruct (Nat.odd (Arg i)); cbn [in_class]; lia. }
  destruct (Nat.odd (Arg i)); [|discriminate]. cbn [folds] in Ex. rewrite SimpleFold_twice in Ex.
  destruct (SimpleFold r =? r); [discriminate|]. destruct (c =? SimpleFold r) eqn:Q2; [cbn [in_class]; lia|]. rewrite Z.eqb_refl in Ex. discriminate.
Qed.

Section Exact.
Variable P : list Inst.
Variable s : bytes.
Hypothesis W : wf P.
Hypothesis LP : litp P.
Variable op : list oInst.
Hypothesis SF : forall pc o, nth_error op pc = Some o -> exists i0, nth_error P pc = Some i0 /\ safe P s pc i0 o.

(** ** Leaves *)
Lemma acc_skip pc pos i : nth_error P pc = Some i -> Op i = InstNop \/ Op i = InstCapture -> acc P s (pc, pos) -> acc P s (Out i, pos).
Proof.
  intros Hi O A. inversion A as [? (i' & Hi' & Ho')|? c' Ed A']; subst. { cbn in Hi'. destruct O; congruence. }
  inversion Ed as [? ? ? He|? i' ? ? ? Hi' Ho']; subst. 2: { assert (i' = i) by congruence. subst i'. destruct O as [O|O]; rewrite O in Ho'; discriminate. }
  inversion He as [? i' Hi' Ho'|? i' Hi' Ho'|? i' Hi' Ho']; subst; assert (i' = i) by congruence; subst i'; try exact A'; destruct O; congruence.
Qed.
Lemma leaves_acc pos : forall fuel pc ls, leaves fuel P pc = Some ls -> acc P s (pc, pos) -> exists l, In l ls /\ acc P s (l, pos).
Proof.
  induction fuel as [|fuel IH]; intros pc ls E A; cbn [leaves] in E; [discriminate|]. destruct (nth_error P pc) as [i|] eqn:Hi; [|discriminate].
  assert (Z0 : Some [pc] = Some ls -> exists l, In l ls /\ acc P s (l, pos)). { intros Q. injection Q as <-. exists pc. split; [left; reflexivity|exact A]. }
  destruct (Op i) eqn:O; try exact (Z0 E).
  - destruct (leaves fuel P (Out i)) as [a|] eqn:Ea; [|discriminate]. destruct (leaves fuel P (Arg i)) as [b|] eqn:Eb; [|discriminate]. injection E as <-.
    apply (acc_alt P s pc pos i Hi O) in A. destruct A as [A|A]; [destruct (IH _ _ Ea A) as (l & I & Q)|destruct (IH _ _ Eb A) as (l & I & Q)]; exists l; (split; [apply in_or_app; tauto|exact Q]).
  - apply (IH _ _ E). apply (acc_skip pc pos i Hi); tauto.
  - exfalso. exact (acc_fail P s pc pos i Hi O A).
  - apply (IH _ _ E). apply (acc_skip pc pos i Hi); tauto.
Qed.
Lemma leaves_leads l : forall fuel pc ls, leaves fuel P pc = Some ls -> In l ls -> leads P s pc l.
Proof.
  induction fuel as [|fuel IH]; intros pc ls E I; cbn [leaves] in E; [discriminate|]. destruct (nth_error P pc) as [i|] eqn:Hi; [|discriminate].
  assert (Z0 : Some [pc] = Some ls -> leads P s pc l). { intros Q. injection Q as <-. destruct I as [<-|[]]. apply leads_refl. }
  destruct (Op i) eqn:O; try exact (Z0 E).
  - destruct (leaves fuel P (Out i)) as [a|] eqn:Ea; [|discriminate]. destruct (leaves fuel P (Arg i)) as [b|] eqn:Eb; [|discriminate]. injection E as <-.
    intros pos A. apply (acc_alt P s pc pos i Hi O). apply in_app_or in I. destruct I as [I|I]; [left; exact (IH _ _ Ea I pos A)|right; exact (IH _ _ Eb I pos A)].
  - intros pos A. eapply a_step; [|exact (IH _ _ E I pos A)]. apply e_eps. eapply e_out; [exact Hi|tauto].
  - injection E as <-. destruct I.
  - intros pos A. eapply a_step; [|exact (IH _ _ E I pos A)]. apply e_eps. eapply e_out; [exact Hi|tauto].
Qed.
Lemma leads_to_ok k l : leads_to P k l = true -> leads P s k l.
Proof.
  unfold leads_to. destruct (leaves _ P k) as [ls|] eqn:E; [|discriminate]. rewrite existsb_eqb. apply (leaves_leads _ _ _ _ E).
Qed.
Lemma dead_ok l lo hi pos r w : dead_on P l lo hi = true -> (pos <= length s)%nat -> step s pos = (r, w) -> 0 <= lo -> lo <= r <= hi -> ~ acc P s (l, pos).
Proof.
  intros D Lp E L0 B A. unfold dead_on in D. destruct (nth_error P l) as [i|] eqn:Hi; [|discriminate].
  assert (Rn : is_rune (Op i) = true -> apart (rune_set i) lo hi = true -> False).
  { intros Ir Q. apply (acc_rune P s l pos i Hi Ir) in A. destruct A as (c & w' & R & M & _). apply (rune_set_ok i c Ir) in M.
    destruct (step_cases s pos) as [(c' & w0 & Ec & Rc)|(Le & Ec)]; [|destruct R; lia]. destruct R as [_ R], Rc as [_ Rc]. rewrite R in Rc. injection Rc as -> ->.
    rewrite E in Ec. injection Ec as -> ->. exact (apart_ok lo hi _ _ _ (le_n _) Q M B). }
  destruct (Op i) eqn:O; try discriminate; try (apply Rn; [reflexivity|exact D]).
  apply (acc_empty P s l pos i Hi O) in A. destruct A as [F _].
  assert (N : snd (context s pos) < 0). { destruct (context s pos) as [r1 r2]. unfold flag_match in F. rewrite D in F. rewrite !Bool.andb_true_iff in F. decompose [and] F. cbn [snd negb orb] in *. lia. }
  change (snd (context s pos)) with (fst (step s pos)) in N. rewrite E in N. cbn [fst] in N. lia.
Qed.
Lemma reads_ok l rs pos r w : reads_in P l rs = true -> step s pos = (r, w) -> acc P s (l, pos) -> in_class rs r.
Proof.
  intros D E A. unfold reads_in in D. destruct (nth_error P l) as [i|] eqn:Hi; [|discriminate]. apply Bool.andb_true_iff in D. destruct D as [Ir C].
  apply (acc_rune P s l pos i Hi Ir) in A. destruct A as (c & w' & R & M & _). apply (rune_set_ok i c Ir) in M.
  destruct (step_cases s pos) as [(c' & w0 & Ec & Rc)|(Le & Ec)]; [|destruct R; lia]. destruct R as [_ R], Rc as [_ Rc]. rewrite R in Rc. injection Rc as -> ->.
  rewrite E in Ec. injection Ec as -> ->. exact (covered_ok _ _ _ _ (le_n _) C M).
Qed.
Lemma pairs_ok_at ls : forall n rs ks, (length rs <= n)%nat -> pairs_ok P ls rs ks = true -> forall m lo hi, nth_error rs (2 * m) = Some lo -> nth_error rs (2 * m + 1) = Some hi ->
  exists k, nth_error ks m = Some k /\ forall l, In l ls -> leads_to P k l = true \/ dead_on P l lo hi = true.
Proof.
  induction n as [|n IH]; intros rs ks L H m lo hi E1 E2; destruct rs as [|a [|b rs]], ks as [|k ks]; cbn in L; try lia; try discriminate; try (destruct (2 * m)%nat; discriminate).
  cbn [pairs_ok] in H. apply Bool.andb_true_iff in H. destruct H as [H1 H2]. destruct m as [|m].
  - cbn in E1, E2. injection E1 as ->. injection E2 as ->. exists k. split; [reflexivity|]. intros l I. rewrite forallb_forall in H1. apply Bool.orb_true_iff, H1, I.
  - replace (2 * S m)%nat with (S (S (2 * m))) in E1, E2 by lia. cbn [nth_error plus] in E1, E2. apply (IH rs ks ltac:(lia) H2 m lo hi E1 E2).
Qed.
Lemma next_ok pc i0 o pos r w : nth_error P pc = Some i0 -> Op i0 = InstAlt -> inst_okb P pc i0 o = true -> (pos <= length s)%nat -> step s pos = (r, w) ->
  exists k, onePassNext o r = Ret k /\ In k (rest_of o :: o_next o) /\ (acc P s (pc, pos) -> acc P s (k, pos)).
Proof.
  intros Hi O K Lp E. unfold inst_okb in K. rewrite O in K. cbv zeta in K. destruct (leaves _ P pc) as [ls|] eqn:El; [|discriminate].
  rewrite !Bool.andb_true_iff in K. destruct K as [[K1 K2] K3]. apply (class_okb_ok _ _ _ (le_n _)) in K1.
  assert (N1 : length (Rune (o_inst o)) <> 1%nat). { destruct (Rune (o_inst o)) as [|x [|y t]]; cbn in *; lia || contradiction. }
  destruct (MatchRunePos_class _ r K1) as (x & Ex & Hx). unfold onePassNext. rewrite (MatchRunePos_arg _ _ _ N1), Ex. cbn [bind].
  destruct x as [m|].
  - apply (MatchRunePos_at _ _ _ _ N1) in Ex. destruct Ex as (lo & hi & A1 & A2 & A3). destruct (pairs_ok_at ls _ _ _ (le_n _) K2 m lo hi A1 A2) as (k & Ek & H).
    exists k. split; [rewrite (get_some _ _ _ Ek); reflexivity|]. split; [right; apply (nth_error_In _ _ Ek)|]. intros A. destruct (leaves_acc pos _ _ _ El A) as (l & I & Al).
    destruct (H l I) as [Q|Q]; [exact (leads_to_ok _ _ Q pos Al)|]. exfalso. refine (dead_ok l lo hi pos r w Q Lp E _ A3 Al).
    apply (class_ok_low _ _ _ lo (le_n _) K1). apply in_class_idx. exists m, lo, hi. repeat split; try assumption; lia.
  - exists (rest_of o). split; [reflexivity|]. split; [left; reflexivity|]. intros A. destruct (leaves_acc pos _ _ _ El A) as (l & I & Al).
    rewrite forallb_forall in K3. specialize (K3 l I). apply Bool.orb_true_iff in K3. destruct K3 as [Q|Q]; [exact (leads_to_ok _ _ Q pos Al)|].
    exfalso. exact (Hx (reads_ok l _ pos r w Q E Al)).
Qed.
Lemma rune_back pc i0 o : nth_error P pc = Some i0 -> is_rune (Op i0) = true -> Op (o_inst o) = Op i0 -> inst_okb P pc i0 o = true ->
  forall c, exists b, MatchRune (o_inst o) c = Ret b /\ (MatchRune i0 c = Ret true -> b = true).
Proof.
  intros Hi Ir Oo K c.
  assert (K' : ((Arg (o_inst o) =? Arg i0)%nat && (if list_eq_dec Z.eq_dec (Rune (o_inst o)) (Rune i0) then true else false)) = true \/
    (match Op i0 with InstRune => true | _ => false end && class_okb 0 (Rune (o_inst o)) && covered (rune_set i0) (Rune (o_inst o))) = true).
  { apply Bool.orb_true_iff. unfold inst_okb in K. cbv zeta in K. destruct (Op i0); try discriminate; exact K. }
  destruct K' as [K'|K'].
  - apply Bool.andb_true_iff in K'. destruct K' as [Ka Kr]. apply Nat.eqb_eq in Ka. destruct (list_eq_dec Z.eq_dec (Rune (o_inst o)) (Rune i0)) as [Q|]; [|discriminate].
    assert (Em : MatchRune (o_inst o) c = MatchRune i0 c). { unfold MatchRune. rewrite Oo, Ka, Q. reflexivity. }
    destruct (proj2 (proj2 (W _ _ Hi)) Ir) as (f & F & _). rewrite Em, F. exists (f c). split; [reflexivity|]. intros X. injection X as X. exact X.
  - rewrite !Bool.andb_true_iff in K'. destruct K' as [[K0 K1] K2]. apply (class_okb_ok _ _ _ (le_n _)) in K1.
    assert (N1 : length (Rune (o_inst o)) <> 1%nat). { destruct (Rune (o_inst o)) as [|x [|y t]]; cbn in *; lia || contradiction. }
    destruct (MatchRunePos_class _ c K1) as (x & Ex & Hx). unfold MatchRune at 1. rewrite Oo. destruct (Op i0) eqn:O; try discriminate.
    rewrite (MatchRunePos_arg _ _ _ N1), Ex. cbn [bind]. eexists. split; [reflexivity|]. intros M. destruct x; [reflexivity|]. exfalso. apply Hx.
    apply (covered_ok _ _ _ _ (le_n _) K2). apply rune_set_ok; [rewrite O; reflexivity|exact M].
Qed.

(** ** The engine *)
Variable v : list nat.
Hypothesis PV : part_ok P op v = true.
Lemma part_at pc : In pc v -> exists i0 o, nth_error P pc = Some i0 /\ nth_error op pc = Some o /\ inst_okb P pc i0 o = true /\ short (S (length op)) op pc = true /\
  forall k, In k (nexts o) -> In k v.
Proof.
  intros I. unfold part_ok in PV. rewrite forallb_forall in PV. specialize (PV pc I). destruct (nth_error P pc) as [i0|]; [|discriminate]. destruct (nth_error op pc) as [o|]; [|discriminate].
  rewrite !Bool.andb_true_iff in PV. destruct PV as [[A C] D]. exists i0, o. repeat split; try assumption. intros k Ik. rewrite forallb_forall in D. apply existsb_eqb, D, Ik.
Qed.
Lemma loop_exact : forall fuel d pc pos r width r1 width1 flag,
  (pos <= length s)%nat -> step s pos = (r, width) -> step s (pos + width) = (r1, width1) ->
  (forall q, flag_match flag q = flag_match (context s pos) q) -> In pc v -> short d op pc = true -> ((length s - pos) * S (length op) + d <= fuel)%nat ->
  exists b, onepass_loop fuel op s pc pos r width r1 width1 flag = Ret b /\ (acc P s (pc, pos) -> b = true).
Proof.
  induction fuel as [|fuel IH]; intros d pc pos r width r1 width1 flag Lp E0 E1 Hf Iv Sh Lf.
  { destruct d; [discriminate|]. generalize dependent ((length s - pos) * S (length op))%nat. intros; lia. }
  destruct d as [|d]; [discriminate|]. destruct (part_at pc Iv) as (i0 & o & Hi & Ho & K & _ & Nx). destruct (SF pc o Ho) as (i0' & Hi' & Sf). assert (i0' = i0) by congruence. subst i0'.
  cbn [short] in Sh. rewrite Ho in Sh. cbn [onepass_loop]. rewrite (get_some _ _ _ Ho). cbn [bind]. cbv zeta.
  assert (No : forall x, ~ acc P s (pc, pos) -> x = Ret false -> exists b, x = Ret b /\ (acc P s (pc, pos) -> b = true)). { intros x N ->. exists false. split; [reflexivity|]. intros A. contradiction. }
  assert (Rn : is_rune (Op i0) = true -> Op (o_inst o) = Op i0 -> Out (o_inst o) = Out i0 ->
    exists b, (let! ok := MatchRune (o_inst o) r in
     if ok then if (width =? 0)%nat then Ret false
       else let '(r2, width2) := if r1 =? endOfText then (r1, width1) else step s (pos + width + width1) in
            onepass_loop fuel op s (Out (o_inst o)) (pos + width) r1 width1 r2 width2 (r, r1)
     else Ret false) = Ret b /\ (acc P s (pc, pos) -> b = true)).
  { intros Hr Oo Ou. destruct (rune_back pc i0 o Hi Hr Oo K r) as (b & -> & Hb). cbn [bind].
    destruct (step_cases s pos) as [(c & w & Ec & Rc)|(Le & Ec)]; rewrite E0 in Ec; injection Ec as -> ->.
    2: { exists false. split; [destruct b; reflexivity|]. intros A. apply (acc_rune P s pc pos i0 Hi Hr) in A. destruct A as (c & w & [R _] & _). lia. }
    assert (Inv : acc P s (pc, pos) -> b = true /\ acc P s (Out i0, pos + w)%nat).
    { intros A. apply (acc_rune P s pc pos i0 Hi Hr) in A. destruct A as (c' & w' & R & M & A). destruct R as [_ R], Rc as [_ Rc]. rewrite R in Rc. injection Rc as -> ->. auto. }
    destruct b; [|exists false; split; [reflexivity|]; intros A; apply (Inv A)].
    destruct (rune_at_facts _ _ _ _ Rc) as ((W1 & W2) & C0). replace (w =? 0)%nat with false by (symmetry; apply Nat.eqb_neq; lia).
    assert (E2 : (if r1 =? endOfText then (r1, width1) else step s (pos + w + width1)) = step s (pos + w + width1)).
    { destruct (step_cases s (pos + w)) as [(c' & w' & Ec' & Rc')|(Le & Ec')]; rewrite E1 in Ec'; injection Ec' as -> ->.
      - destruct (rune_at_facts _ _ _ _ Rc') as (_ & C0'). replace (c' =? endOfText) with false by (symmetry; apply Z.eqb_neq; unfold endOfText; lia). reflexivity.
      - change (-1 =? endOfText) with true. cbv iota. rewrite step_end by lia. reflexivity. }
    rewrite E2. destruct (step s (pos + w + width1)) as [r2 width2] eqn:E3.
    assert (Iv' : In (Out (o_inst o)) v). { apply Nx. unfold nexts. rewrite Oo. destruct (Op i0); try discriminate; left; reflexivity. }
    destruct (part_at _ Iv') as (_ & _ & _ & _ & _ & Sh' & _).
    destruct (IH (S (length op)) (Out (o_inst o)) (pos + w)%nat r1 width1 r2 width2 (c, r1)) as (b & Eb & Hb'); try assumption.
    - intros q. destruct (context_next s pos c w Rc) as (X1 & X2). destruct (context s (pos + w)) as [d1 d2]. cbn [fst snd] in *. apply flag_eqv; [exact X1|]. rewrite X2, E1. left. reflexivity.
    - assert (H : (length s - pos = (length s - (pos + w)) + w)%nat) by lia. clear - Lf W1 H. revert Lf. rewrite H. generalize (length s - (pos + w))%nat. generalize (S (length op)). clear - W1. intros n x Lf. rewrite Nat.mul_add_distr_r in Lf. assert (n <= w * n)%nat by (destruct w; [lia|cbn [Nat.mul]; apply Nat.le_add_r]). remember (x * n)%nat as y. remember (w * n)%nat as z. lia.
    - exists b. split; [exact Eb|]. intros A. apply Hb'. rewrite Ou. apply (Inv A). }
  assert (Mv : forall k, In k (nexts o) -> is_rune (Op (o_inst o)) = false -> exists b, onepass_loop fuel op s k pos r width r1 width1 flag = Ret b /\ (acc P s (k, pos) -> b = true)).
  { intros k Ik Nr. rewrite Nr in Sh. cbn [orb] in Sh. rewrite forallb_forall in Sh. apply (IH d); try assumption; [apply Nx, Ik|apply Sh, Ik|generalize dependent ((length s - pos) * S (length op))%nat; intros; lia]. }
  assert (Al : Op i0 = InstAlt -> nexts o = rest_of o :: o_next o -> is_rune (Op (o_inst o)) = false ->
    exists b, (let! pc := onePassNext o r in onepass_loop fuel op s pc pos r width r1 width1 flag) = Ret b /\ (acc P s (pc, pos) -> b = true)).
  { intros Oa En Nr. destruct (next_ok pc i0 o pos r width Hi Oa K Lp E0) as (k & Ek & Ik & Hk). rewrite Ek. cbn [bind]. destruct (Mv k) as (b & Eb & Hb); [rewrite En; exact Ik|exact Nr|].
    exists b. split; [exact Eb|]. intros A. apply Hb, Hk, A. }
  unfold safe in Sf. destruct (Op i0) eqn:O0.
  - destruct Sf as [[A A'] F]. unfold nexts in Al, Mv. destruct (Op (o_inst o)) eqn:Oi; try discriminate; apply Al; reflexivity.
  - exfalso. apply (proj1 (W _ _ Hi)). exact O0.
  - destruct Sf as (So & Su & Sa). rewrite So. destruct (Mv (Out (o_inst o))) as (b & Eb & Hb); [unfold nexts; rewrite So; left; reflexivity|rewrite So; reflexivity|].
    exists b. split; [exact Eb|]. intros A. apply Hb. rewrite Su. apply (acc_skip pc pos i0 Hi); tauto.
  - destruct Sf as (So & Su & Sa). rewrite So. destruct (Mv (Out (o_inst o))) as (b & Eb & Hb); [unfold nexts; rewrite So; left; reflexivity|rewrite So; reflexivity|].
    destruct (flag_match flag (Arg (o_inst o))) eqn:Fm.
    + exists b. split; [exact Eb|]. intros A. apply Hb. rewrite Su. apply (acc_empty P s pc pos i0 Hi O0) in A. tauto.
    + apply No; [|reflexivity]. intros A. apply (acc_empty P s pc pos i0 Hi O0) in A. rewrite <- Sa, <- Hf, Fm in A. destruct A; discriminate.
  - unfold inst_okb in K. rewrite O0 in K. cbv zeta in K. destruct (Op (o_inst o)) eqn:Oi; try discriminate. exists true. split; reflexivity.
  - destruct Sf as (So & Su & Sa). rewrite So. apply No; [|reflexivity]. apply (acc_fail P s pc pos i0 Hi O0).
  - destruct Sf as (So & Su & Sa). rewrite So. destruct (Mv (Out (o_inst o))) as (b & Eb & Hb); [unfold nexts; rewrite So; left; reflexivity|rewrite So; reflexivity|].
    exists b. split; [exact Eb|]. intros A. apply Hb. rewrite Su. apply (acc_skip pc pos i0 Hi); tauto.
  - destruct Sf as (So & Su & Sm). rewrite So. exact (Rn eq_refl So Su).
  - destruct Sf as (So & Su & Sm). rewrite So. exact (Rn eq_refl So Su).
Qed.

(** the literal prefix *)
Lemma prefix_back : forall fuel pc rs e, prefix_runes fuel P pc = Ret (rs, e) -> forall pos, acc P s (pc, pos) ->
  firstn (length rs) (skipn pos s) = map bZ rs /\ acc P s (e, pos + length rs)%nat.
Proof.
  induction fuel as [|fuel IH]; intros pc rs e E pos A; cbn [prefix_runes] in E; [discriminate|]. apply bindr in E as (i & Ei & E). apply get_inv in Ei.
  assert (Z0 : Ret ([], pc) = Ret (rs, e) -> firstn (length rs) (skipn pos s) = map bZ rs /\ acc P s (e, pos + length rs)%nat).
  { intros Q. injection Q as <- <-. cbn [length map firstn]. rewrite Nat.add_0_r. split; [reflexivity|exact A]. }
  destruct (is_rune (Op i)) eqn:Ir; [|exact (Z0 E)]. destruct (Rune i) as [|r [|? ?]] eqn:Er; try exact (Z0 E).
  destruct (Nat.odd (Arg i) || (r =? 65533)) eqn:Od; [exact (Z0 E)|]. apply bindr in E as ([rs' e'] & E1 & E). injection E as <- <-.
  apply Bool.orb_false_elim in Od. destruct Od as [Od _].
  apply (acc_rune P s pc pos i Ei Ir) in A. destruct A as (c & w & R & M & A). destruct LP as [_ HL]. pose proof (proj1 (HL _ _ Ei) r Er) as Rr.
  assert (c = r). { apply (rune_set_ok i c Ir) in M. unfold rune_set in M. rewrite Er, Od in M. destruct (Op i); cbn [in_class] in M; lia. } subst c.
  destruct R as [Lp Rd]. destruct (skipn_cons_lt s pos Lp) as (b & t & Es & _). rewrite Es in Rd. destruct (decode_cases _ _ _ _ Rd) as [(D1 & D2 & D3)|(D1 & D2 & _)]; [|lia]. subst w.
  destruct (IH _ _ _ E1 _ A) as [Q1 Q2]. cbn [length map firstn]. rewrite Es. split; [|replace (pos + S (length rs'))%nat with (pos + 1 + length rs')%nat by lia; exact Q2].
  cbn [firstn]. f_equal; [rewrite D2; symmetry; apply bZ_Zb|]. rewrite <- Q1. f_equal. apply (f_equal (skipn 1)) in Es. rewrite skipn_plus in Es. rewrite Es. reflexivity.
Qed.
Lemma nops_back : forall fuel pc k, skip_nops fuel P pc = Ret k -> forall pos, acc P s (pc, pos) -> acc P s (k, pos).
Proof.
  induction fuel as [|fuel IH]; intros pc k E pos A; cbn [skip_nops] in E; [discriminate|]. apply bindr in E as (i & Ei & E). apply get_inv in Ei.
  destruct (Op i) eqn:Oi; try (injection E as <-; exact A). apply (IH _ _ E). apply (acc_skip pc pos i Ei); tauto.
Qed.
Lemma engine_exact start cond prefix e i : nth_error P start = Some i -> Op i = InstEmptyWidth -> onePassPrefix P start = Ret (prefix, e) -> In start v -> (prefix <> [] -> In e v) ->
  (acc P s (start, 0%nat) -> cond <> 255%nat) -> exists b, doOnePass op start cond prefix e s = Ret b /\ (acc P s (start, 0%nat) -> b = true).
Proof.
  intros Hi Oi Ep Is Ie Hc. unfold doOnePass. cbv zeta. destruct (cond =? 255)%nat eqn:Ec. { exists false. split; [reflexivity|]. intros A. apply Nat.eqb_eq in Ec. specialize (Hc A). contradiction. }
  destruct (step s 0) as [r width] eqn:E0. destruct (if r =? endOfText then (endOfText, O) else step s width) as [r1 width1] eqn:E1.
  assert (E1' : step s (0 + width) = (r1, width1)).
  { cbn [plus]. destruct (step_cases s 0) as [(c & w & Ex & Rc)|(Le & Ex)]; rewrite E0 in Ex; injection Ex as -> ->.
    - destruct (rune_at_facts _ _ _ _ Rc) as (_ & C0). replace (c =? endOfText) with false in E1 by (symmetry; apply Z.eqb_neq; unfold endOfText; lia). exact E1.
    - change (-1 =? endOfText) with true in E1. cbv iota in E1. rewrite E0. exact E1. }
  assert (Hf : forall q, flag_match (-1, r) q = flag_match (context s 0) q). { intros q. rewrite context_start, E0. reflexivity. }
  destruct (part_at start Is) as (i' & o & Hi' & Ho & K & Sh & _). assert (i' = i) by congruence. subst i'. rewrite (get_some _ _ _ Ho). cbn [bind].
  destruct (SF _ _ Ho) as (i0 & Hi0 & Sf). assert (i0 = i) by congruence. subst i0. unfold safe in Sf. rewrite Oi in Sf. destruct Sf as (_ & _ & Sa).
  set (fuel := (S (length s) * S (length op) + 1)%nat).
  assert (Z0 : exists b, onepass_loop fuel op s start 0 r width r1 width1 (-1, r) = Ret b /\ (acc P s (start, 0%nat) -> b = true)).
  { apply (loop_exact fuel (S (length op))); try assumption; [lia|]. unfold fuel. rewrite Nat.sub_0_r. cbn [Nat.mul]. generalize (length s * S (length op))%nat. intros; lia. }
  destruct prefix as [|b0 prefix]; [exact Z0|]. destruct (flag_match (-1, r) (Arg (o_inst o))) eqn:Fm; [|exact Z0]. clear Z0.
  unfold onePassPrefix in Ep. apply bindr in Ep as (i' & Ei' & Ep). apply get_inv in Ei'. assert (i' = i) by congruence. subst i'.
  apply bindr in Ep as (pc & En & Ep). apply bindr in Ep as ([rs e'] & Er & Ep). destruct rs as [|r0 rs]; [discriminate|]. injection Ep as Eb Ep' <-.
  set (pos := length (b0 :: prefix)) in *.
  assert (Lrs : length (r0 :: rs) = pos). { unfold pos. cbn [length]. rewrite <- Ep', map_length. reflexivity. }
  assert (Bk : acc P s (start, 0%nat) -> firstn pos s = b0 :: prefix /\ acc P s (e', pos)).
  { intros A. apply (acc_empty P s start 0 i Hi Oi) in A. destruct A as [_ A]. apply (nops_back _ _ _ En) in A. destruct (prefix_back _ _ _ _ Er _ A) as [Q1 Q2].
    rewrite Lrs in Q1, Q2. split; [|exact Q2]. cbn [skipn] in Q1. rewrite Q1. cbn [map]. rewrite Eb, Ep'. reflexivity. }
  destruct (bytes_eqb (firstn pos s) (b0 :: prefix)) eqn:Pf.
  2: { exists false. split; [reflexivity|]. intros A. destruct (Bk A) as [Q _]. apply bytes_eqb_spec in Q. congruence. }
  destruct (step s pos) as [r' w'] eqn:E2. destruct (step s (pos + w')) as [r1' w1'] eqn:E3. apply bytes_eqb_spec in Pf.
  assert (Lpos : (pos <= length s)%nat). { assert (L : length (firstn pos s) = pos) by (rewrite Pf; reflexivity). rewrite firstn_length in L. lia. }
  assert (Iv : In e' v) by (apply Ie; discriminate). destruct (part_at e' Iv) as (_ & _ & _ & _ & _ & Sh' & _).
  destruct (loop_exact fuel (S (length op)) e' pos r' w' r1' w1' (context s pos)) as (b & Eb' & Hb); try assumption; try reflexivity.
  { unfold fuel. cbn [Nat.mul]. assert ((length s - pos) * S (length op) <= length s * S (length op))%nat by (apply Nat.mul_le_mono_r; lia). generalize dependent ((length s - pos) * S (length op))%nat. generalize (length s * S (length op))%nat. intros; lia. }
  exists b. split; [exact Eb'|]. intros A. apply Hb, (Bk A).
Qed.
End Exact.

(** ** The whole *)
Theorem MatchString_exact parsed R s : re_ok parsed -> MustCompile parsed = Ret R -> tables_ok R = true ->
  exists b, MatchString R s = Ret b /\ (b = true <-> exists i j, boundary s i /\ Den s parsed i j).
Proof.
  intros Ok E T. destruct (re_onepass R) as [op|] eqn:ON; [|exact (MatchString_ok parsed R s Ok E ON)].
  pose proof (fun b : bool => MatchString_sound parsed R s Ok E) as Sd.
  pose proof (MustCompile_good parsed R Ok E) as (W & Tg & (sf & Es0) & A & Mi). destruct (Simplify_ok parsed Ok) as [Ok' Nr].
  assert (X : exists b, MatchString R s = Ret b /\ ((exists i j, boundary s i /\ Den s parsed i j) -> b = true)).
  2: { destruct X as (b & Eb & Hb). exists b. split; [exact Eb|]. split; [intros ->; exact (Sd true Eb)|exact Hb]. }
  unfold tables_ok in T. rewrite ON in T. cbv zeta in T. set (v := collect _ _ _ _) in T. clearbody v. rewrite !Bool.andb_true_iff in T. destruct T as [[[T1 T2] T3] T4]. apply existsb_eqb in T1.
  unfold MustCompile in E. cbv zeta in E. apply bindr in E as ([p start] & Ec & E). apply bindr in E as (cond & Es & E). apply bindr in E as (o & Eo & E).
  pose proof (Compile_lit _ _ _ Ok' Ec) as LP.
  destruct o as [op'|].
  2: { exfalso. apply bindr in E as (i & _ & E). destruct (is_rune (Op i)), (Rune i) as [|? [|? ?]], (Op i); try discriminate; injection E as <-; discriminate. }
  apply bindr in E as ([pre e] & Ep & E). injection E as <-. cbn [re_onepass] in ON. injection ON as ->. cbn [re_prog re_start re_prefix re_prefixEnd re_cond re_min] in *.
  destruct (compileOnePass_safe p s W start op Eo) as (SF & i & Hi & Oi). rewrite Hi in T4.
  unfold MatchString. cbn [re_onepass re_min re_start re_cond re_prefix re_prefixEnd].
  assert (Z0 : forall i0 j, boundary s i0 -> Den s parsed i0 j -> i0 = O /\ acc p s (start, 0%nat) /\ (minInputLen (Simplify parsed) <= length s)%nat).
  { intros i0 j Bd D. assert (Li : (i0 <= length s)%nat) by (apply (from_in s 0); [lia|apply from_boundary, Bd]).
    assert (Ac : acc p s (start, i0)) by (apply A; [exact Li|exists j; exact D]).
    assert (i0 = O). { pose proof Ac as Q. apply (acc_empty p s start i0 i Hi Oi) in Q. destruct Q as [Q _]. apply (context_r1_neg s i0 Li). exact (flag_begin _ _ Q T4). }
    subst i0. split; [reflexivity|]. split; [exact Ac|]. specialize (Mi s _ _ D). pose proof (den_range _ _ _ _ D Li). lia. }
  destruct (length s <? minInputLen (Simplify parsed))%nat eqn:Lm.
  { exists false. split; [reflexivity|]. intros (i0 & j & Bd & D). destruct (Z0 _ _ Bd D) as (_ & _ & L). lia. }
  destruct (engine_exact p s W LP op SF v T3 start cond pre e i Hi Oi Ep T1) as (b & Eb & Hb).
  - intros N. destruct pre; [contradiction|]. apply existsb_eqb. exact T2.
  - intros Ac. apply (start_anchored p s sf start cond 0 Es0); [lia|exact Ac].
  - exists b. split; [exact Eb|]. intros (i0 & j & Bd & D). apply Hb. destruct (Z0 _ _ Bd D) as (_ & Ac & _). exact Ac.
Qed.
