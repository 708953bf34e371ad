(** GoRegexpComp.v - proof that the compiler of GoRegexp.v, with its patch lists, builds the code of GoRegexpCode.v (for C97). *)
From Verif Require Import Base BaseFacts GoStr GoStrLit Bip32 GoCodec GoRegexp SpecRegexp GoRegexpIn GoRegexpRun GoRegexpCode.

(** ** Fields *)
(** In proofs; for bip32/path.go:22, 25, bip32/reg_ver_bytes.go:75. *)
Definition fld (p : list Inst) (h : nat) : option nat := option_map (fun i => if Nat.odd h then Arg i else Out i) (nth_error p (Nat.div2 h)).
(** In proofs; for bip32/path.go:22, 25, bip32/reg_ver_bytes.go:75. *)
Definition ops (p : list Inst) (k : nat) : option (InstOp * list Z) := option_map (fun i => (Op i, Rune i)) (nth_error p k).

Lemma div2_even k : Nat.div2 (2 * k) = k /\ Nat.odd (2 * k) = false.
Proof. split; [apply Nat.div2_double|]. rewrite Nat.odd_mul. reflexivity. Qed.
Lemma div2_odd k : Nat.div2 (2 * k + 1) = k /\ Nat.odd (2 * k + 1) = true.
Proof. replace (2 * k + 1)%nat with (S (2 * k)) by lia. split; [apply Nat.div2_succ_double|]. rewrite Nat.odd_succ, Nat.even_mul. reflexivity. Qed.
Lemma h_split h : h = (2 * Nat.div2 h + (if Nat.odd h then 1 else 0))%nat.
Proof. pose proof (Nat.div2_odd h) as E. unfold Nat.b2n in E. exact E. Qed.
Lemma fld_out p k i : nth_error p k = Some i -> fld p (2 * k) = Some (Out i).
Proof. intros H. unfold fld. destruct (div2_even k) as [-> ->]. rewrite H. reflexivity. Qed.
Lemma fld_arg p k i : nth_error p k = Some i -> fld p (2 * k + 1) = Some (Arg i).
Proof. intros H. unfold fld. destruct (div2_odd k) as [-> ->]. rewrite H. reflexivity. Qed.
(** instructions are equal when their fields are *)
Lemma inst_eq p P k i : nth_error p k = Some i -> ops P k = ops p k -> fld P (2 * k) = fld p (2 * k) -> fld P (2 * k + 1) = fld p (2 * k + 1) ->
  nth_error P k = Some i.
Proof.
  intros H O F1 F2. unfold ops in O. rewrite H in O. cbn in O. destruct (nth_error P k) as [j|] eqn:E; [|discriminate].
  rewrite (fld_out _ _ _ E), (fld_out _ _ _ H) in F1. rewrite (fld_arg _ _ _ E), (fld_arg _ _ _ H) in F2.
  cbn in O. destruct i, j; cbn in *. congruence.
Qed.

Lemma get_field_ok p h x : fld p h = Some x -> get_field p h = Ret x.
Proof. unfold fld, get_field, get. destruct (nth_error p (Nat.div2 h)); cbn; congruence. Qed.
Lemma put_field_ok p h v : fld p h <> None -> exists p', put_field p h v = Ret p' /\ length p' = length p /\
  (forall k, ops p' k = ops p k) /\ fld p' h = Some v /\ (forall h', h' <> h -> fld p' h' = fld p h').
Proof.
  unfold fld at 1, put_field. intros H. destruct (nth_error p (Nat.div2 h)) as [i|] eqn:E; [|easy].
  rewrite (get_some _ _ _ E). cbn [bind].
  set (i' := if Nat.odd h then mkInst (Op i) (Out i) v (Rune i) else mkInst (Op i) v (Arg i) (Rune i)).
  destruct (put_some p (Nat.div2 h) i') as (p' & Ep & Lp & N1 & N2). { apply nth_error_Some. congruence. }
  exists p'. split; [exact Ep|]. split; [exact Lp|]. split; [|split].
  - intros k. unfold ops. destruct (Nat.eq_dec k (Nat.div2 h)) as [->|Nk]; [rewrite N1, E; unfold i'; cbn; destruct (Nat.odd h); reflexivity|rewrite N2 by exact Nk; reflexivity].
  - unfold fld. rewrite N1. unfold i'. cbn. destruct (Nat.odd h); reflexivity.
  - intros h' Nh. unfold fld. destruct (Nat.eq_dec (Nat.div2 h') (Nat.div2 h)) as [Eh|Nk]; [|rewrite N2 by exact Nk; reflexivity].
    rewrite Eh, N1, E. cbn. unfold i'. pose proof (h_split h) as S1. pose proof (h_split h') as S2. rewrite Eh in S2.
    destruct (Nat.odd h) eqn:O1, (Nat.odd h') eqn:O2; cbn [Out Arg]; try reflexivity; exfalso; apply Nh; rewrite S1, S2; reflexivity.
Qed.

(** ** Patch lists *)
(** In proofs; for bip32/path.go:22, 25, bip32/reg_ver_bytes.go:75. *)
Inductive linked (p : list Inst) : nat -> list nat -> nat -> Prop :=
| lk_one h : h <> O -> fld p h = Some O -> linked p h [h] h
| lk_cons h nx H tl : h <> O -> fld p h = Some nx -> linked p nx H tl -> linked p h (h :: H) tl.
Lemma linked_ext p p' h H tl : linked p h H tl -> (forall x, In x H -> fld p' x = fld p x) -> linked p' h H tl.
Proof.
  induction 1 as [h N F|h nx H tl N F K IH]; intros E.
  - apply lk_one; [exact N|]. rewrite E by (left; reflexivity). exact F.
  - eapply lk_cons; [exact N| |apply IH; intros x Hx; apply E; right; exact Hx]. rewrite E by (left; reflexivity). exact F.
Qed.
Lemma linked_head p h H tl : linked p h H tl -> h <> O /\ In h H /\ In tl H.
Proof. induction 1 as [|? ? ? ? ? ? ? (A & B & C)]; cbn; tauto. Qed.
Lemma linked_inv p h a H tl : linked p h (a :: H) tl -> a = h /\ h <> O /\ (H = [] /\ fld p h = Some O \/ exists nx, fld p h = Some nx /\ linked p nx H tl).
Proof. intros K. inversion K; subst; eauto 8. Qed.
Lemma patch_ok p v : forall H h tl fuel, linked p h H tl -> NoDup H -> (length H < fuel)%nat ->
  exists p', patch fuel p h v = Ret p' /\ length p' = length p /\ (forall k, ops p' k = ops p k) /\
    (forall x, In x H -> fld p' x = Some v) /\ (forall x, ~ In x H -> fld p' x = fld p x).
Proof.
  intros H. revert p. induction H as [|a H IH]; intros p h tl fuel K N F; [inversion K|].
  destruct fuel as [|fuel]; [lia|]. cbn [patch].
  destruct (linked_inv _ _ _ _ _ K) as (-> & Nz & [(-> & Fh)|(nx & Fh & K')]).
  - replace (h =? 0)%nat with false by (symmetry; apply Nat.eqb_neq; exact Nz). rewrite (get_field_ok _ _ _ Fh). cbn [bind].
    destruct (put_field_ok p h v) as (p' & E & L & O & F1 & F2); [congruence|]. rewrite E. cbn [bind].
    destruct fuel; [cbn in F; lia|]. cbn [patch]. change (0 =? 0)%nat with true. cbv iota.
    exists p'. split; [reflexivity|]. split; [exact L|]. split; [exact O|]. split; [intros x [<-|[]]; exact F1|].
    intros x Hx. apply F2. intros ->. apply Hx. left. reflexivity.
  - replace (h =? 0)%nat with false by (symmetry; apply Nat.eqb_neq; exact Nz). rewrite (get_field_ok _ _ _ Fh). cbn [bind].
    destruct (put_field_ok p h v) as (p1 & E & L & O & F1 & F2); [congruence|]. rewrite E. cbn [bind].
    inversion N as [|? ? Na Nh]; subst.
    destruct (IH p1 nx tl fuel) as (p' & E' & L' & O' & F1' & F2').
    { apply (linked_ext p); [exact K'|]. intros x Hx. apply F2. intros ->. contradiction. }
    { exact Nh. } { cbn in F. lia. }
    exists p'. split; [exact E'|]. split; [congruence|]. split; [intros k; rewrite O'; apply O|]. split.
    + intros x [<-|Hx]; [rewrite F2' by exact Na; exact F1|exact (F1' x Hx)].
    + intros x Hx. rewrite F2' by (intros Q; apply Hx; right; exact Q). apply F2. intros ->. apply Hx. left. reflexivity.
Qed.

(** ** Fragments *)
(** P agrees with p on the instructions lo..hi-1, except that its fields H hold n *)
(** In proofs; for bip32/path.go:22, 25, bip32/reg_ver_bytes.go:75. *)
Definition agree (lo hi : nat) (p : list Inst) (H : list nat) (n : nat) (P : list Inst) : Prop :=
  (forall k, (lo <= k < hi)%nat -> ops P k = ops p k) /\
  (forall h, (lo <= Nat.div2 h < hi)%nat -> ~ In h H -> fld P h = fld p h) /\
  (forall h, In h H -> fld P h = Some n).
(** In proofs; for bip32/path.go:22, 25, bip32/reg_ver_bytes.go:75. *)
Definition op_fine (i : Inst) : Prop :=
  match Op i with InstFail | InstMatch | InstAltMatch => False | _ => True end /\
  (is_rune (Op i) = true -> exists g, (forall c, MatchRune i c = Ret (g c)) /\ g (-1) = false).
(** In proofs; for bip32/path.go:22, 25, bip32/reg_ver_bytes.go:75. *)
Definition jump_ok (lo hi : nat) (H : list nat) (h x : nat) : Prop := In h H \/ (lo <= x < hi)%nat.
(** In proofs; for bip32/path.go:22, 25, bip32/reg_ver_bytes.go:75. *)
Record frag_ok (lo hi : nat) (p : list Inst) (f : frag) (H : list nat) (K : list Inst -> nat -> nat -> Prop) : Prop := {
  fk_lo : (0 < lo)%nat; fk_hi : (hi <= length p)%nat; fk_i : (lo <= f_i f < hi)%nat;
  fk_linked : linked p (fst (f_out f)) H (snd (f_out f)); fk_nodup : NoDup H;
  fk_range : forall h, In h H -> (lo <= Nat.div2 h < hi)%nat;
  fk_holes : forall h i, In h H -> nth_error p (Nat.div2 h) = Some i -> Nat.odd h = true -> Op i = InstAlt;
  fk_code : forall P n, agree lo hi p H n P -> K P (f_i f) n;
  fk_wf : forall k i, (lo <= k < hi)%nat -> nth_error p k = Some i -> op_fine i /\ jump_ok lo hi H (2 * k) (Out i) /\ (Op i = InstAlt -> jump_ok lo hi H (2 * k + 1) (Arg i)) }.

Lemma same_nth p p' k : nth_error p' k = nth_error p k -> ops p' k = ops p k.
Proof. unfold ops. intros ->. reflexivity. Qed.
Lemma same_fld p p' h : nth_error p' (Nat.div2 h) = nth_error p (Nat.div2 h) -> fld p' h = fld p h.
Proof. unfold fld. intros ->. reflexivity. Qed.
(** a fragment does not change when instructions elsewhere do *)
Lemma frag_ext lo hi p p' f H K : frag_ok lo hi p f H K -> (hi <= length p')%nat -> (forall k, (lo <= k < hi)%nat -> nth_error p' k = nth_error p k) -> frag_ok lo hi p' f H K.
Proof.
  intros [A B C D E F G I J] L S. constructor; try assumption.
  - apply (linked_ext p); [exact D|]. intros x Hx. apply same_fld, S. exact (F x Hx).
  - intros h i Hh Hi Od. apply (G h i Hh); [|exact Od]. rewrite <- Hi. symmetry. apply S. exact (F h Hh).
  - intros P n (A1 & A2 & A3). apply I. split; [|split; [|exact A3]].
    + intros k Hk. rewrite (A1 k Hk). apply same_nth, S, Hk.
    + intros h Hh Nh. rewrite (A2 h Hh Nh). apply same_fld, S, Hh.
  - intros k i Hk Hi. apply (J k i Hk). rewrite <- Hi. symmetry. apply S. exact Hk.
Qed.
Lemma frag_weaken lo hi p f H (K K' : list Inst -> nat -> nat -> Prop) : frag_ok lo hi p f H K -> (forall P n, K P (f_i f) n -> K' P (f_i f) n) -> frag_ok lo hi p f H K'.
Proof. intros [A B C D E F G I J] S. constructor; try assumption. intros P n Ha. apply S, I, Ha. Qed.
Lemma H_len lo hi p f H K : frag_ok lo hi p f H K -> (length H < S (2 * length p))%nat.
Proof.
  intros [A B C D E F G I J]. assert (length H <= 2 * length p)%nat; [|lia]. rewrite <- (seq_length (2 * length p) 0).
  apply NoDup_incl_length; [exact E|]. intros h Hh. apply in_seq. pose proof (F h Hh). pose proof (h_split h). destruct (Nat.odd h); lia.
Qed.

(** one instruction *)
Lemma inst_frag p o a rs nul : (0 < length p)%nat -> op_fine (mkInst o 0 a rs) -> o <> InstAlt ->
  exists p' f, c_inst p o a rs nul = (p', f) /\ f_i f = length p /\ length p' = S (length p) /\ (forall k, (k < length p)%nat -> nth_error p' k = nth_error p k) /\
   frag_ok (length p) (S (length p)) p' f [(2 * length p)%nat]
     (fun P x n => exists i, nth_error P x = Some i /\ Op i = o /\ Arg i = a /\ Rune i = rs /\ Out i = n).
Proof.
  intros Lp Ho Na. unfold c_inst. eexists _, _. split; [reflexivity|]. split; [reflexivity|].
  assert (Ln : nth_error (p ++ [mkInst o 0 a rs]) (length p) = Some (mkInst o 0 a rs)).
  { rewrite nth_error_app2 by lia. rewrite Nat.sub_diag. reflexivity. }
  split; [rewrite app_length; cbn; lia|]. split; [intros k Hk; apply nth_error_app1; exact Hk|].
  destruct (div2_even (length p)) as [D1 D2]. constructor; cbn [f_i f_out fst snd].
  - exact Lp.
  - rewrite app_length. cbn. lia.
  - lia.
  - apply lk_one; [lia|]. rewrite (fld_out _ _ _ Ln). reflexivity.
  - constructor; [easy|constructor].
  - intros h [<-|[]]. rewrite D1. lia.
  - intros h i [<-|[]] _ Q. rewrite D2 in Q. discriminate.
  - intros P n (A1 & A2 & A3). specialize (A1 (length p) ltac:(lia)). specialize (A3 _ (or_introl eq_refl)).
    unfold ops in A1. rewrite Ln in A1. cbn in A1. destruct (nth_error P (length p)) as [i|] eqn:E; [|discriminate].
    exists i. split; [reflexivity|]. rewrite (fld_out _ _ _ E) in A3.
    assert (A4 : fld P (2 * length p + 1) = fld (p ++ [mkInst o 0 a rs]) (2 * length p + 1)).
    { apply A2; [destruct (div2_odd (length p)) as [-> _]; lia|]. intros [Q|[]]. lia. }
    rewrite (fld_arg _ _ _ E), (fld_arg _ _ _ Ln) in A4. cbn in A1, A4. repeat split; congruence.
  - intros k i Hk Hi. assert (k = length p) by lia. subst k. rewrite Ln in Hi. injection Hi as <-. split; [exact Ho|]. split; [left; left; reflexivity|]. cbn. congruence.
Qed.

(** concatenation *)
Lemma cat_frag l0 l1 l2 p f1 f2 H1 H2 K1 K2 : frag_ok l0 l1 p f1 H1 K1 -> frag_ok l1 l2 p f2 H2 K2 ->
  exists p' f, c_cat p f1 f2 = Ret (p', f) /\ f_i f = f_i f1 /\ length p' = length p /\ (forall k, ~ (l0 <= k < l1)%nat -> nth_error p' k = nth_error p k) /\
    frag_ok l0 l2 p' f H2 (fun P x n => exists m, K1 P x m /\ K2 P m n).
Proof.
  intros F1 F2. pose proof (fk_i _ _ _ _ _ _ F1) as I1. pose proof (fk_i _ _ _ _ _ _ F2) as I2. pose proof (fk_lo _ _ _ _ _ _ F1) as L0.
  unfold c_cat. replace ((f_i f1 =? 0)%nat || (f_i f2 =? 0)%nat) with false.
  2:{ symmetry. apply Bool.orb_false_intro; apply Nat.eqb_neq; lia. }
  destruct (patch_ok p (f_i f2) H1 _ _ (S (2 * length p)) (fk_linked _ _ _ _ _ _ F1) (fk_nodup _ _ _ _ _ _ F1) (H_len _ _ _ _ _ _ F1)) as (p' & E & L & O & X1 & X2).
  rewrite E. cbn [bind]. eexists p', _. split; [reflexivity|]. split; [reflexivity|]. split; [exact L|].
  assert (Same : forall k, ~ (l0 <= k < l1)%nat -> nth_error p' k = nth_error p k).
  { intros k Hk. destruct (nth_error p k) as [i|] eqn:Ei.
    - apply (inst_eq p p' k i Ei (O k)); apply X2; intros Q; apply (fk_range _ _ _ _ _ _ F1) in Q; [rewrite (proj1 (div2_even k)) in Q|rewrite (proj1 (div2_odd k)) in Q]; contradiction.
    - apply nth_error_None in Ei. apply nth_error_None. lia. }
  split; [exact Same|].
  assert (F2' : frag_ok l1 l2 p' f2 H2 K2).
  { apply (frag_ext _ _ p); [exact F2|rewrite L; apply (fk_hi _ _ _ _ _ _ F2)|]. intros k Hk. apply Same. lia. }
  destruct F1 as [A B C D Nd F G Cd J]. destruct F2' as [A' B' C' D' Nd' F' G' Cd' J'].
  constructor; cbn [f_i f_out].
  - exact A.
  - exact B'.
  - lia.
  - exact D'.
  - exact Nd'.
  - intros h Hh. specialize (F' h Hh). lia.
  - exact G'.
  - intros P n (A1 & A2 & A3). exists (f_i f2). split.
    + apply Cd. split; [|split].
      * intros k Hk. rewrite (A1 k ltac:(lia)). apply O.
      * intros h Hh Nh. rewrite (A2 h ltac:(lia)); [apply X2; exact Nh|]. intros Q. apply F' in Q. lia.
      * intros h Hh. rewrite (A2 h); [apply X1; exact Hh|specialize (F h Hh); lia|]. intros Q. apply F' in Q. specialize (F h Hh). lia.
    + apply Cd'. split; [|split; [|exact A3]].
      * intros k Hk. apply A1. lia.
      * intros h Hh Nh. apply A2; [lia|exact Nh].
  - intros k i Hk Hi. destruct (Nat.lt_ge_cases k l1) as [Lk|Lk].
    + (* in the first part *)
      assert (Ep : exists i0, nth_error p k = Some i0) by (destruct (nth_error p k) eqn:Q; [eauto|apply nth_error_None in Q; lia]).
      destruct Ep as (i0 & Ei0). destruct (J k i0 ltac:(lia) Ei0) as (J1 & J2 & J3).
      pose proof (O k) as Ok. unfold ops in Ok. rewrite Hi, Ei0 in Ok. cbn in Ok. injection Ok as Oo Or.
      assert (Jump : forall h x x0, Nat.div2 h = k -> fld p h = Some x0 -> fld p' h = Some x -> jump_ok l0 l1 H1 h x0 -> jump_ok l0 l2 H2 h x).
      { intros h x x0 Dh Fh Fh' [Q|Q]; right.
        - rewrite (X1 h Q) in Fh'. injection Fh' as <-. lia.
        - destruct (in_dec Nat.eq_dec h H1) as [Q'|Q']; [rewrite (X1 h Q') in Fh'; injection Fh' as <-; lia|].
          rewrite (X2 h Q'), Fh in Fh'. injection Fh' as <-. lia. }
      assert (Arg_eq : Op i <> InstAlt -> Arg i = Arg i0).
      { intros Na. assert (Q : ~ In (2 * k + 1)%nat H1).
        { intros Q. apply Na. rewrite Oo. apply (G _ _ Q); [destruct (div2_odd k) as [-> _]; exact Ei0|apply div2_odd]. }
        specialize (X2 _ Q). rewrite (fld_arg _ _ _ Hi), (fld_arg _ _ _ Ei0) in X2. congruence. }
      split; [|split].
      * destruct J1 as [J1 J1']. split; [rewrite Oo; exact J1|]. rewrite Oo. intros Hr. destruct (J1' Hr) as (g & Hg & He). exists g. split; [|exact He].
        intros c. rewrite <- Hg. unfold MatchRune. rewrite Oo, Or, Arg_eq; [reflexivity|]. rewrite Oo. destruct (Op i0); discriminate.
      * apply (Jump _ _ (Out i0)); [apply div2_even|apply fld_out; exact Ei0|apply fld_out; exact Hi|exact J2].
      * intros Oa. apply (Jump _ _ (Arg i0)); [apply div2_odd|apply fld_arg; exact Ei0|apply fld_arg; exact Hi|apply J3; congruence].
    + destruct (J' k i ltac:(lia) Hi) as (J1 & J2 & J3). split; [exact J1|].
      assert (Jump : forall h x, jump_ok l1 l2 H2 h x -> jump_ok l0 l2 H2 h x) by (intros h x [Q|Q]; [left; exact Q|right; lia]).
      split; [apply Jump, J2|]. intros Oa. apply Jump, J3, Oa.
Qed.

(** loop and plus *)
(** In proofs; for bip32/path.go:22, 25, bip32/reg_ver_bytes.go:75. *)
Definition Kloop (K : list Inst -> nat -> nat -> Prop) : list Inst -> nat -> nat -> Prop :=
  fun P x n => exists i, nth_error P x = Some i /\ Op i = InstAlt /\ Arg i = n /\ K P (Out i) x.
(** In proofs; for bip32/path.go:22, 25, bip32/reg_ver_bytes.go:75. *)
Definition Kplus (K : list Inst -> nat -> nat -> Prop) : list Inst -> nat -> nat -> Prop :=
  fun P x n => exists l i, nth_error P l = Some i /\ Op i = InstAlt /\ Arg i = n /\ Out i = x /\ K P x l.
Lemma loop_frag l0 p f1 H1 K : frag_ok l0 (length p) p f1 H1 K ->
  exists p' f, c_loop p f1 = Ret (p', f) /\ length p' = S (length p) /\ (forall k, (k < l0)%nat -> nth_error p' k = nth_error p k) /\
    frag_ok l0 (length p') p' f [(2 * length p + 1)%nat] (Kloop K) /\
    forall b, frag_ok l0 (length p') p' (mkFrag (f_i f1) (f_out f) b) [(2 * length p + 1)%nat] (Kplus K).
Proof.
  intros F1. pose proof (fk_i _ _ _ _ _ _ F1) as I1. pose proof (fk_lo _ _ _ _ _ _ F1) as L0.
  set (q := p ++ [mkInst InstAlt (f_i f1) 0 []]). assert (Lq : length q = S (length p)) by (unfold q; rewrite app_length; cbn; lia).
  assert (Nq : nth_error q (length p) = Some (mkInst InstAlt (f_i f1) 0 [])). { unfold q. rewrite nth_error_app2 by lia. rewrite Nat.sub_diag. reflexivity. }
  assert (F1' : frag_ok l0 (length p) q f1 H1 K).
  { apply (frag_ext _ _ p); [exact F1|lia|]. intros k Hk. unfold q. apply nth_error_app1. lia. }
  unfold c_loop. cbv zeta. fold q.
  destruct (patch_ok q (length p) H1 _ _ (S (2 * length q)) (fk_linked _ _ _ _ _ _ F1') (fk_nodup _ _ _ _ _ _ F1') (H_len _ _ _ _ _ _ F1')) as (p' & E & L & O & X1 & X2).
  rewrite E. cbn [bind]. eexists p', _. split; [reflexivity|]. split; [lia|].
  pose proof (fk_range _ _ _ _ _ _ F1') as Rg.
  assert (Same : forall k, ~ (l0 <= k < length p)%nat -> nth_error p' k = nth_error q k).
  { intros k Hk. destruct (nth_error q k) as [i|] eqn:Ei.
    - apply (inst_eq q p' k i Ei (O k)); apply X2; intros Q; apply Rg in Q; [rewrite (proj1 (div2_even k)) in Q|rewrite (proj1 (div2_odd k)) in Q]; contradiction.
    - apply nth_error_None in Ei. apply nth_error_None. lia. }
  split. { intros k Hk. rewrite Same by lia. unfold q. apply nth_error_app1. lia. }
  assert (Nl : nth_error p' (length p) = Some (mkInst InstAlt (f_i f1) 0 [])) by (rewrite Same by lia; exact Nq).
  destruct F1' as [A B C D Nd F G Cd J].
  (* what both fragments share *)
  assert (Code2 : forall P n, agree l0 (length p') p' [(2 * length p + 1)%nat] n P ->
     exists i, nth_error P (length p) = Some i /\ Op i = InstAlt /\ Arg i = n /\ Out i = f_i f1 /\ K P (f_i f1) (length p)).
  { intros P n (A1 & A2 & A3). pose proof (A1 (length p) ltac:(lia)) as Al. unfold ops in Al. rewrite Nl in Al. cbn in Al.
    destruct (nth_error P (length p)) as [i|] eqn:Ei; [|discriminate]. exists i. split; [reflexivity|]. cbn in Al. injection Al as Oi Ri. split; [exact Oi|].
    specialize (A3 _ (or_introl eq_refl)). rewrite (fld_arg _ _ _ Ei) in A3. split; [congruence|].
    assert (Q : fld P (2 * length p) = fld p' (2 * length p)). { apply A2; [rewrite (proj1 (div2_even _)); lia|]. intros [Q|[]]. lia. }
    rewrite (fld_out _ _ _ Ei), (fld_out _ _ _ Nl) in Q. cbn in Q. split; [congruence|].
    apply Cd. split; [|split].
    - intros k Hk. rewrite (A1 k ltac:(lia)). apply O.
    - intros h Hh Nh. rewrite (A2 h ltac:(lia)); [apply X2; exact Nh|]. intros [Q'|[]]. subst h. rewrite (proj1 (div2_odd _)) in Hh. lia.
    - intros h Hh. specialize (F h Hh). rewrite (A2 h ltac:(lia)); [apply X1; exact Hh|]. intros [Q'|[]]. subst h. rewrite (proj1 (div2_odd _)) in F. lia. }
  assert (Wf2 : forall k i, (l0 <= k < length p')%nat -> nth_error p' k = Some i -> op_fine i /\ jump_ok l0 (length p') [(2 * length p + 1)%nat] (2 * k) (Out i) /\
     (Op i = InstAlt -> jump_ok l0 (length p') [(2 * length p + 1)%nat] (2 * k + 1) (Arg i))).
  { intros k i Hk Hi. destruct (Nat.eq_dec k (length p)) as [->|Nk].
    - rewrite Nl in Hi. injection Hi as <-. split; [split; [exact I|discriminate]|]. split; [right; cbn; lia|]. intros _. left. left. reflexivity.
    - assert (Ep : exists i0, nth_error q k = Some i0) by (destruct (nth_error q k) eqn:Q; [eauto|apply nth_error_None in Q; lia]).
      destruct Ep as (i0 & Ei0). destruct (J k i0 ltac:(lia) Ei0) as (J1 & J2 & J3).
      pose proof (O k) as Ok. unfold ops in Ok. rewrite Hi, Ei0 in Ok. cbn in Ok. injection Ok as Oo Or.
      assert (Jump : forall h x x0, fld q h = Some x0 -> fld p' h = Some x -> jump_ok l0 (length p) H1 h x0 -> jump_ok l0 (length p') [(2 * length p + 1)%nat] h x).
      { intros h x x0 Fh Fh' [Q|Q]; right.
        - rewrite (X1 h Q) in Fh'. injection Fh' as <-. lia.
        - destruct (in_dec Nat.eq_dec h H1) as [Q'|Q']; [rewrite (X1 h Q') in Fh'; injection Fh' as <-; lia|].
          rewrite (X2 h Q'), Fh in Fh'. injection Fh' as <-. lia. }
      assert (Arg_eq : Op i <> InstAlt -> Arg i = Arg i0).
      { intros Na. assert (Q : ~ In (2 * k + 1)%nat H1).
        { intros Q. apply Na. rewrite Oo. apply (G _ _ Q); [destruct (div2_odd k) as [-> _]; exact Ei0|apply div2_odd]. }
        specialize (X2 _ Q). rewrite (fld_arg _ _ _ Hi), (fld_arg _ _ _ Ei0) in X2. congruence. }
      split; [|split].
      + destruct J1 as [J1 J1']. split; [rewrite Oo; exact J1|]. rewrite Oo. intros Hr. destruct (J1' Hr) as (g & Hg & He). exists g. split; [|exact He].
        intros c. rewrite <- Hg. unfold MatchRune. rewrite Oo, Or, Arg_eq; [reflexivity|]. rewrite Oo. destruct (Op i0); discriminate.
      + apply (Jump _ _ (Out i0)); [apply fld_out; exact Ei0|apply fld_out; exact Hi|exact J2].
      + intros Oa. apply (Jump _ _ (Arg i0)); [apply fld_arg; exact Ei0|apply fld_arg; exact Hi|apply J3; congruence]. }
  assert (Lk : linked p' (2 * length p + 1) [(2 * length p + 1)%nat] (2 * length p + 1)).
  { apply lk_one; [lia|]. rewrite (fld_arg _ _ _ Nl). reflexivity. }
  assert (Rg2 : forall h, In h [(2 * length p + 1)%nat] -> (l0 <= Nat.div2 h < length p')%nat).
  { intros h [<-|[]]. rewrite (proj1 (div2_odd _)). lia. }
  assert (Ho2 : forall h i, In h [(2 * length p + 1)%nat] -> nth_error p' (Nat.div2 h) = Some i -> Nat.odd h = true -> Op i = InstAlt).
  { intros h i [<-|[]] Hi _. rewrite (proj1 (div2_odd _)), Nl in Hi. injection Hi as <-. reflexivity. }
  assert (N1 : NoDup [(2 * length p + 1)%nat]) by (constructor; [easy|constructor]).
  split; [|intros b].
  - constructor; cbn [f_i f_out fst snd]; try assumption; [lia|lia|].
    intros P n Ha. destruct (Code2 P n Ha) as (i & Ei & Oi & Ai & Ui & Ki). exists i. rewrite Ui. tauto.
  - constructor; cbn [f_i f_out fst snd]; try assumption; [lia|lia|].
    intros P n Ha. destruct (Code2 P n Ha) as (i & Ei & Oi & Ai & Ui & Ki). exists (length p), i. tauto.
Qed.

(** quest *)
(** In proofs; for bip32/path.go:22, 25, bip32/reg_ver_bytes.go:75. *)
Definition Kquest (K : list Inst -> nat -> nat -> Prop) : list Inst -> nat -> nat -> Prop :=
  fun P x n => exists i, nth_error P x = Some i /\ Op i = InstAlt /\ Arg i = n /\ K P (Out i) n.
Lemma quest_frag l0 p f1 H1 K : frag_ok l0 (length p) p f1 H1 K ->
  exists p' f H, c_quest p f1 = Ret (p', f) /\ length p' = S (length p) /\ (forall k, (k < l0)%nat -> nth_error p' k = nth_error p k) /\
    frag_ok l0 (length p') p' f H (Kquest K).
Proof.
  intros F1. pose proof (fk_i _ _ _ _ _ _ F1) as I1. pose proof (fk_lo _ _ _ _ _ _ F1) as L0.
  set (q := p ++ [mkInst InstAlt (f_i f1) 0 []]). assert (Lq : length q = S (length p)) by (unfold q; rewrite app_length; cbn; lia).
  assert (Nq : nth_error q (length p) = Some (mkInst InstAlt (f_i f1) 0 [])). { unfold q. rewrite nth_error_app2 by lia. rewrite Nat.sub_diag. reflexivity. }
  assert (F1' : frag_ok l0 (length p) q f1 H1 K).
  { apply (frag_ext _ _ p); [exact F1|lia|]. intros k Hk. unfold q. apply nth_error_app1. lia. }
  destruct F1' as [A B C D Nd F G Cd J]. destruct (linked_head _ _ _ _ D) as (Nz & Hin & _).
  unfold c_quest. cbv zeta. fold q. unfold append_list. cbn [fst snd].
  replace (2 * length p + 1 =? 0)%nat with false by (symmetry; apply Nat.eqb_neq; lia).
  replace (fst (f_out f1) =? 0)%nat with false by (symmetry; apply Nat.eqb_neq; exact Nz).
  destruct (put_field_ok q (2 * length p + 1) (fst (f_out f1))) as (p' & E & L & O & X1 & X2). { rewrite (fld_arg _ _ _ Nq). discriminate. }
  rewrite E. cbn [bind]. set (nh := (2 * length p + 1)%nat) in *. eexists p', _, (nh :: H1). split; [reflexivity|]. split; [lia|].
  assert (Same : forall k, k <> length p -> nth_error p' k = nth_error q k).
  { intros k Hk. destruct (nth_error q k) as [i|] eqn:Ei.
    - apply (inst_eq q p' k i Ei (O k)); apply X2; unfold nh; lia.
    - apply nth_error_None in Ei. apply nth_error_None. lia. }
  split. { intros k Hk. rewrite Same by lia. unfold q. apply nth_error_app1. lia. }
  assert (Nl : nth_error p' (length p) = Some (mkInst InstAlt (f_i f1) (fst (f_out f1)) [])).
  { pose proof (O (length p)) as Ol. unfold ops in Ol. rewrite Nq in Ol. cbn in Ol. destruct (nth_error p' (length p)) as [i|] eqn:Ei; [|discriminate].
    assert (Q : fld p' (2 * length p) = fld q (2 * length p)) by (apply X2; unfold nh; lia).
    rewrite (fld_out _ _ _ Ei), (fld_out _ _ _ Nq) in Q. unfold nh in X1. rewrite (fld_arg _ _ _ Ei) in X1. destruct i; cbn in *. congruence. }
  assert (Nin : ~ In nh H1). { intros Q. apply F in Q. unfold nh in Q. rewrite (proj1 (div2_odd _)) in Q. lia. }
  constructor; cbn [f_i f_out fst snd].
  - exact A.
  - lia.
  - lia.
  - eapply lk_cons; [unfold nh; lia|exact X1|]. apply (linked_ext q); [exact D|]. intros x Hx. apply X2. intros ->. contradiction.
  - constructor; assumption.
  - intros h [<-|Hh]; [unfold nh; rewrite (proj1 (div2_odd _)); lia|specialize (F h Hh); lia].
  - intros h i [<-|Hh] Hi Od.
    + unfold nh in Hi. rewrite (proj1 (div2_odd _)), Nl in Hi. injection Hi as <-. reflexivity.
    + apply (G h i Hh); [|exact Od]. rewrite <- Hi. symmetry. apply Same. specialize (F h Hh). lia.
  - intros P n (A1 & A2 & A3). pose proof (A1 (length p) ltac:(lia)) as Al. unfold ops in Al. rewrite Nl in Al. cbn in Al.
    destruct (nth_error P (length p)) as [i|] eqn:Ei; [|discriminate]. exists i. split; [exact Ei|]. cbn in Al. injection Al as Oi Ri. split; [exact Oi|].
    pose proof (A3 nh (or_introl eq_refl)) as A4. unfold nh in A4. rewrite (fld_arg _ _ _ Ei) in A4. split; [congruence|].
    assert (Q : fld P (2 * length p) = fld p' (2 * length p)).
    { apply A2; [rewrite (proj1 (div2_even _)); lia|]. intros [Q|Q]; [unfold nh in Q; lia|]. apply F in Q. rewrite (proj1 (div2_even _)) in Q. lia. }
    rewrite (fld_out _ _ _ Ei), (fld_out _ _ _ Nl) in Q. cbn in Q. replace (Out i) with (f_i f1) by congruence.
    apply Cd. split; [|split].
    + intros k Hk. rewrite (A1 k ltac:(lia)). apply O.
    + intros h Hh Nh. assert (h <> nh) by (intros ->; unfold nh in Hh; rewrite (proj1 (div2_odd _)) in Hh; lia).
      rewrite (A2 h ltac:(lia)); [apply X2; assumption|]. intros [Q'|Q']; [congruence|contradiction].
    + intros h Hh. apply A3. right. exact Hh.
  - intros k i Hk Hi. destruct (Nat.eq_dec k (length p)) as [->|Nk].
    + rewrite Nl in Hi. injection Hi as <-. split; [split; [exact I|discriminate]|]. split; [right; cbn; lia|]. intros _. left. left. reflexivity.
    + rewrite Same in Hi by exact Nk. destruct (J k i ltac:(lia) Hi) as (J1 & J2 & J3). split; [exact J1|].
      assert (Jump : forall h x, jump_ok l0 (length p) H1 h x -> jump_ok l0 (length p') (nh :: H1) h x) by (intros h x [Q|Q]; [left; right; exact Q|right; lia]).
      split; [apply Jump, J2|]. intros Oa. apply Jump, J3, Oa.
Qed.

(** ** Runes *)
Lemma class_rune rs : class_ok 0 rs -> rs <> [] -> forall o, o = (if (match rs with [_] => true | [lo; hi] => lo =? hi | _ => false end) then InstRune1 else InstRune) ->
  forall i, Op i = o -> Arg i = O -> Rune i = rs -> rune_inst (in_class rs) i.
Proof.
  intros Ck Ne o Eo i Oi Ai Ri. split; [rewrite Oi, Eo; destruct (match rs with [_] => true | [lo; hi] => lo =? hi | _ => false end); reflexivity|].
  destruct (match rs with [_] => true | [lo; hi] => lo =? hi | _ => false end) eqn:E1.
  - destruct rs as [|lo [|hi [|? ?]]]; try discriminate; [contradiction|]. apply Z.eqb_eq in E1. subst hi.
    exists (fun c => c =? lo). split; [|split].
    + intros c. unfold MatchRune. rewrite Oi, Eo, Ri. reflexivity.
    + cbn in Ck. apply Z.eqb_neq. lia.
    + intros c. cbn. rewrite Z.eqb_eq. lia.
  - assert (Hm : forall c, exists b, MatchRune i c = Ret b /\ (b = true <-> in_class rs c)).
    { intros c. destruct (MatchRunePos_class rs c Ck) as (x & Hx & Hq). unfold MatchRune. rewrite Oi, Eo, Ai, Ri, Hx. cbn [bind].
      eexists. split; [reflexivity|]. destruct x; [tauto|]. split; [discriminate|contradiction]. }
    exists (fun c => match MatchRune i c with Ret b => b | Panic => false end). split; [|split].
    + intros c. destruct (Hm c) as (b & -> & _). reflexivity.
    + destruct (Hm (-1)) as (b & -> & Hb). destruct b; [|reflexivity]. exfalso. pose proof (proj1 Hb eq_refl) as Q. revert Ck Q. clear. intros Ck Q.
      assert (X : forall rs k, 0 <= k -> class_ok k rs -> ~ in_class rs (-1)).
      { clear. fix IH 1. intros [|lo [|hi rs]] k Hk; cbn; try easy. intros [A B] [C|C]; [lia|]. apply (IH rs (hi + 1)) in C; [exact C|lia|exact B]. }
      exact (X rs 0 (Z.le_refl 0) Ck Q).
    + intros c. destruct (Hm c) as (b & -> & Hb). exact Hb.
Qed.
Lemma lit_inst fold r i fl : 0 <= r < 128 -> fl = (if fold && negb (SimpleFold r =? r) then 1%nat else 0%nat) ->
  Op i = (if (fl =? 0)%nat && true then InstRune1 else InstRune) -> Arg i = fl -> Rune i = [r] -> rune_inst (lit_rune fold r) i.
Proof.
  intros Hr Ef Oi Ai Ri.
  assert (Sf : SimpleFold r = if (65 <=? r) && (r <=? 90) then r + 32 else if (97 <=? r) && (r <=? 122) then r - 32 else r) by reflexivity.
  destruct (fold && negb (SimpleFold r =? r)) eqn:E; subst fl; cbn [Nat.eqb andb] in Oi.
  - apply Bool.andb_true_iff in E. destruct E as [-> E]. apply Bool.negb_true_iff, Z.eqb_neq in E.
    assert (Hs : SimpleFold (SimpleFold r) = r /\ 0 <= SimpleFold r /\ (65 <= r <= 90 /\ SimpleFold r = r + 32 \/ 97 <= r <= 122 /\ SimpleFold r = r - 32)).
    { rewrite Sf in E |- *. destruct (Z.leb_spec 65 r), (Z.leb_spec r 90), (Z.leb_spec 97 r), (Z.leb_spec r 122); cbn [andb] in E |- *; try lia; unfold SimpleFold;
        repeat match goal with |- context [?a <=? ?b] => destruct (Z.leb_spec a b) end; cbn [andb]; try lia. }
    split; [rewrite Oi; reflexivity|]. exists (fun c => (c =? r) || (c =? SimpleFold r)). split; [|split].
    + intros c. unfold MatchRune, MatchRunePos. rewrite Oi, Ai, Ri. cbn [length get nth_error bind Nat.odd].
      destruct (c =? r) eqn:Ec; cbn [orb]; [reflexivity|]. change (Nat.odd 1) with true. cbv iota. cbn [bind folds].
      replace (SimpleFold r =? r) with false by (symmetry; apply Z.eqb_neq; exact E). destruct (c =? SimpleFold r); [reflexivity|].
      destruct Hs as (-> & _). rewrite Z.eqb_refl. reflexivity.
    + apply Bool.orb_false_intro; apply Z.eqb_neq; lia.
    + intros c. rewrite Bool.orb_true_iff, !Z.eqb_eq. unfold lit_rune. lia.
  - split; [rewrite Oi; reflexivity|]. exists (fun c => c =? r). split; [|split].
    + intros c. unfold MatchRune. rewrite Oi, Ri. reflexivity.
    + apply Z.eqb_neq. lia.
    + intros c. rewrite Z.eqb_eq. unfold lit_rune. split; [tauto|]. intros [Q|[-> Q]]; [exact Q|]. exfalso. cbn [andb] in E. apply Bool.negb_false_iff, Z.eqb_eq in E.
      rewrite Sf in E. destruct (Z.leb_spec 65 r), (Z.leb_spec r 90), (Z.leb_spec 97 r), (Z.leb_spec r 122); cbn [andb] in E; lia.
Qed.
Lemma rune_fine Q i : rune_inst Q i -> op_fine i.
Proof. intros (A & g & B & C & _). split; [destruct (Op i); try exact I; discriminate|]. intros _. exists g. tauto. Qed.
(** In proofs; for bip32/path.go:22, 25, bip32/reg_ver_bytes.go:75. *)
Definition Krune (Q : Z -> Prop) : list Inst -> nat -> nat -> Prop := fun P x n => exists i, nth_error P x = Some i /\ rune_inst Q i /\ Out i = n.
Lemma rune_frag p Q o a rs nul : (0 < length p)%nat -> (forall i, Op i = o -> Arg i = a -> Rune i = rs -> rune_inst Q i) ->
  exists p' f, c_inst p o a rs nul = (p', f) /\ f_i f = length p /\ length p' = S (length p) /\ (forall k, (k < length p)%nat -> nth_error p' k = nth_error p k) /\
   frag_ok (length p) (S (length p)) p' f [(2 * length p)%nat] (Krune Q).
Proof.
  intros Lp HQ. pose proof (HQ (mkInst o 0 a rs) eq_refl eq_refl eq_refl) as H0.
  assert (Na : o <> InstAlt) by (destruct H0 as (A & _); cbn in A; intros ->; discriminate).
  destruct (inst_frag p o a rs nul Lp (rune_fine _ _ H0) Na) as (p' & f & E & I & L & S & F). exists p', f.
  split; [exact E|]. split; [exact I|]. split; [exact L|]. split; [exact S|]. eapply frag_weaken; [exact F|].
  intros P n (i & A1 & A2 & A3 & A4 & A5). exists i. split; [exact A1|]. split; [apply HQ; assumption|exact A5].
Qed.

Lemma chain_snoc P f rs r pc m n : chain P f rs pc m -> Krune (lit_rune f r) P m n -> chain P f (rs ++ [r]) pc n.
Proof.
  induction 1 as [m|r0 rs pc i m Hi Hr C IH]; intros (j & Hj & Rj & <-); cbn.
  - eapply ch_cons; [exact Hj|exact Rj|constructor].
  - eapply ch_cons; [exact Hi|exact Hr|]. apply IH. exists j. tauto.
Qed.
(** In proofs; for bip32/path.go:22, 25, bip32/reg_ver_bytes.go:75. *)
Definition ascii_lits (rs : list Z) : Prop := Forall (fun r => 0 <= r < 128) rs.
Lemma literal_frag fold : forall rs l0 p f H done, ascii_lits rs -> frag_ok l0 (length p) p f H (fun P x n => chain P fold done x n) ->
  exists p' f' H', c_literal p f rs fold = Ret (p', f') /\ (length p <= length p')%nat /\ (forall k, (k < l0)%nat -> nth_error p' k = nth_error p k) /\
    frag_ok l0 (length p') p' f' H' (fun P x n => chain P fold (done ++ rs) x n).
Proof.
  induction rs as [|r rs IH]; intros l0 p f H done A F; cbn [c_literal].
  - exists p, f, H. rewrite app_nil_r. split; [reflexivity|]. split; [lia|]. split; [reflexivity|exact F].
  - inversion A as [|? ? Hr A']; subst. pose proof (fk_lo _ _ _ _ _ _ F) as L0. pose proof (fk_i _ _ _ _ _ _ F) as I0.
    unfold c_rune. cbv zeta.
    set (fl := if fold && negb (SimpleFold r =? r) then 1%nat else 0%nat).
    destruct (rune_frag p (lit_rune fold r) (if (fl =? 0)%nat && true then InstRune1 else InstRune) fl [r] false) as (p1 & f1 & E1 & I1 & L1 & S1 & F1).
    { lia. } { intros i Oi Ai Ri. exact (lit_inst _ r i fl Hr eq_refl Oi Ai Ri). }
    rewrite E1.
    assert (F0 : frag_ok l0 (length p) p1 f H (fun P x n => chain P fold done x n)).
    { apply (frag_ext _ _ p); [exact F|lia|]. intros k Hk. apply S1. lia. }
    destruct (cat_frag _ _ _ _ _ _ _ _ _ _ F0 F1) as (p2 & f2 & E2 & I2 & L2 & S2 & F2). rewrite E2. cbn [bind].
    assert (F2' : frag_ok l0 (length p2) p2 f2 [(2 * length p)%nat] (fun P x n => chain P fold (done ++ [r]) x n)).
    { rewrite L2, L1. eapply frag_weaken; [exact F2|]. intros P n (m & C1 & C2). eapply chain_snoc; eassumption. }
    destruct (IH l0 p2 f2 _ (done ++ [r]) A' F2') as (p3 & f3 & H3 & E3 & L3 & S3 & F3).
    exists p3, f3, H3. split; [exact E3|]. split; [lia|]. split.
    + intros k Hk. rewrite S3 by exact Hk. rewrite S2 by lia. apply S1. lia.
    + rewrite <- app_assoc in F3. exact F3.
Qed.

(** ** The compiler *)
(** In proofs; for bip32/path.go:22, 25, bip32/reg_ver_bytes.go:75. *)
Fixpoint no_repeat (re : regexp) : Prop :=
  match re with
  | OpRepeat _ _ _ => False
  | OpCapture _ a | OpStar a | OpPlus a | OpQuest a => no_repeat a
  | OpConcat a b => no_repeat a /\ no_repeat b
  | _ => True
  end.
(** In proofs; for bip32/path.go:22, 25, bip32/reg_ver_bytes.go:75. *)
Definition Kcode (re : regexp) : list Inst -> nat -> nat -> Prop := fun P x n => Code P re x n.
Lemma compile_frag re : forall p, re_ok re -> no_repeat re -> (0 < length p)%nat ->
  exists p' f H, compile p re = Ret (p', f) /\ (length p < length p')%nat /\ (forall k, (k < length p)%nat -> nth_error p' k = nth_error p k) /\
    frag_ok (length p) (length p') p' f H (Kcode re).
Proof.
  assert (Nop : forall p o a nul, (0 < length p)%nat -> o <> InstAlt -> op_fine (mkInst o 0 a []) -> forall re, 
    (forall P x i, nth_error P x = Some i -> Op i = o -> Arg i = a -> Kcode re P x (Out i)) ->
    exists p' f H, Ret (c_inst p o a [] nul) = Ret (p', f) /\ (length p < length p')%nat /\ (forall k, (k < length p)%nat -> nth_error p' k = nth_error p k) /\
    frag_ok (length p) (length p') p' f H (Kcode re)).
  { intros p o a nul Lp Na Fi re0 HK. destruct (inst_frag p o a [] nul Lp Fi Na) as (p' & f & E & I & L & S & F). rewrite E.
    exists p', f, [(2 * length p)%nat]. split; [reflexivity|]. split; [lia|]. split; [exact S|]. rewrite L. eapply frag_weaken; [exact F|].
    intros P n (i & A1 & A2 & A3 & _ & <-). apply HK; assumption. }
  assert (Fn : op_fine (mkInst InstNop 0 0 [])) by (split; [exact I|discriminate]).
  assert (Fe : forall a, op_fine (mkInst InstEmptyWidth 0 a [])) by (intros a; split; [exact I|discriminate]).
  assert (Fc : forall a, op_fine (mkInst InstCapture 0 a [])) by (intros a; split; [exact I|discriminate]).
  induction re as [|f rs|rs| | |k a IH|a IH|a IH|a IH|mn mx a IH|a IHa b IHb]; intros p Ok Nr Lp; cbn [compile].
  - apply Nop; try easy. intros P x i A1 A2 _. constructor; assumption.
  - destruct rs as [|r rs]; [apply Nop; try easy; intros P x i A1 A2 _; constructor; assumption|].
    cbn [re_ok] in Ok. assert (A : ascii_lits (r :: rs)) by (eapply Forall_impl; [|exact Ok]; intros z [Hz _]; exact Hz).
    inversion A as [|? ? Hr A']; subst. unfold c_rune. cbv zeta. set (fl := if f && negb (SimpleFold r =? r) then 1%nat else 0%nat).
    destruct (rune_frag p (lit_rune f r) (if (fl =? 0)%nat && true then InstRune1 else InstRune) fl [r] false) as (p1 & f1 & E1 & I1 & L1 & S1 & F1).
    { lia. } { intros i Oi Ai Ri. exact (lit_inst _ r i fl Hr eq_refl Oi Ai Ri). }
    rewrite E1.
    assert (F1' : frag_ok (length p) (length p1) p1 f1 [(2 * length p)%nat] (fun P x n => chain P f [r] x n)).
    { rewrite L1. eapply frag_weaken; [exact F1|]. intros P n (i & A1 & A2 & <-). eapply ch_cons; [exact A1|exact A2|constructor]. }
    destruct (literal_frag f rs _ _ _ _ _ A' F1') as (p2 & f2 & H2 & E2 & L2 & S2 & F2). exists p2, f2, H2. split; [exact E2|]. split; [lia|].
    split; [intros q Hq; rewrite S2 by exact Hq; apply S1, Hq|]. eapply frag_weaken; [exact F2|]. intros P n C. apply K_lit. exact C.
  - destruct Ok as [Ck Ne]. unfold c_rune. cbv zeta.
    replace (match rs with [r] => if false && negb (SimpleFold r =? r) then 1%nat else 0%nat | _ => 0%nat end) with 0%nat by (destruct rs as [|? [|? ?]]; reflexivity).
    destruct (rune_frag p (in_class rs) (if (0 =? 0)%nat && match rs with [_] => true | [lo; hi] => lo =? hi | _ => false end then InstRune1 else InstRune) 0 rs false) as (p1 & f1 & E1 & I1 & L1 & S1 & F1).
    { lia. } { intros i Oi Ai Ri. eapply class_rune; try eassumption. reflexivity. }
    rewrite E1. exists p1, f1, [(2 * length p)%nat]. split; [reflexivity|]. split; [lia|]. split; [exact S1|]. rewrite L1. eapply frag_weaken; [exact F1|].
    intros P n (i & A1 & A2 & <-). apply K_class; assumption.
  - apply Nop; try easy. intros P x i A1 A2 A3. constructor; assumption.
  - apply Nop; try easy. intros P x i A1 A2 A3. constructor; assumption.
  - (* capture *)
    cbn [re_ok no_repeat] in Ok, Nr.
    destruct (inst_frag p InstCapture (2 * k) [] true Lp (Fc _) ltac:(discriminate)) as (p1 & f1 & E1 & I1 & L1 & S1 & F1). rewrite E1.
    destruct (IH p1 Ok Nr ltac:(lia)) as (p2 & f2 & H2 & E2 & L2 & S2 & F2). rewrite E2. cbn [bind].
    destruct (inst_frag p2 InstCapture (2 * k + 1) [] true ltac:(lia) (Fc _) ltac:(discriminate)) as (p3 & f3 & E3 & I3 & L3 & S3 & F3). rewrite E3.
    assert (F1' : frag_ok (length p) (length p1) p3 f1 [(2 * length p)%nat] (fun P x n => exists i, nth_error P x = Some i /\ Op i = InstCapture /\ Arg i = (2 * k)%nat /\ Rune i = [] /\ Out i = n)).
    { apply (frag_ext _ _ p1); [rewrite L1; exact F1|lia|]. intros q Hq. rewrite S3 by lia. apply S2. lia. }
    assert (F2' : frag_ok (length p1) (length p2) p3 f2 H2 (Kcode a)). { apply (frag_ext _ _ p2); [exact F2|lia|]. intros q Hq. apply S3. lia. }
    destruct (cat_frag _ _ _ _ _ _ _ _ _ _ F1' F2') as (p4 & f4 & E4 & I4 & L4 & S4 & F4). rewrite E4. cbn [bind].
    assert (F3' : frag_ok (length p2) (S (length p2)) p4 f3 [(2 * length p2)%nat] (fun P x n => exists i, nth_error P x = Some i /\ Op i = InstCapture /\ Arg i = (2 * k + 1)%nat /\ Rune i = [] /\ Out i = n)).
    { apply (frag_ext _ _ p3); [exact F3|lia|]. intros q Hq. apply S4. lia. }
    destruct (cat_frag _ _ _ _ _ _ _ _ _ _ F4 F3') as (p5 & f5 & E5 & I5 & L5 & S5 & F5). rewrite E5.
    exists p5, f5, [(2 * length p2)%nat]. split; [reflexivity|]. split; [lia|]. split.
    { intros q Hq. rewrite S5, S4, S3, S2 by lia. apply S1. exact Hq. }
    replace (length p5) with (S (length p2)) by lia. eapply frag_weaken; [exact F5|].
    intros P n (m2 & (m1 & (i1 & A1 & A2 & _ & _ & <-) & C) & (i2 & B1 & B2 & _ & _ & <-)). eapply K_cap; eassumption.
  - (* star *)
    cbn [re_ok no_repeat] in Ok, Nr. destruct (IH p Ok Nr Lp) as (p1 & f1 & H1 & E1 & L1 & S1 & F1). rewrite E1. cbn [bind].
    destruct (loop_frag _ _ _ _ _ F1) as (p2 & f2 & E2 & L2 & S2 & F2 & F2').
    unfold c_star. destruct (f_nullable f1).
    + unfold c_plus. rewrite E2. cbn [bind]. destruct (quest_frag _ _ _ _ _ (F2' (f_nullable f1))) as (p3 & f3 & H3 & E3 & L3 & S3 & F3).
      rewrite E3. exists p3, f3, H3. split; [reflexivity|]. split; [lia|]. split; [intros q Hq; rewrite S3, S2 by exact Hq; apply S1, Hq|].
      eapply frag_weaken; [exact F3|]. intros P n (i & A1 & A2 & <- & l & j & B1 & B2 & B3 & B4 & C). eapply K_starq; eassumption.
    + rewrite E2. exists p2, f2, [(2 * length p1 + 1)%nat]. split; [reflexivity|]. split; [lia|]. split; [intros q Hq; rewrite S2 by exact Hq; apply S1, Hq|].
      eapply frag_weaken; [exact F2|]. intros P n (i & A1 & A2 & <- & C). eapply K_star; eassumption.
  - (* plus *)
    cbn [re_ok no_repeat] in Ok, Nr. destruct (IH p Ok Nr Lp) as (p1 & f1 & H1 & E1 & L1 & S1 & F1). rewrite E1. cbn [bind].
    destruct (loop_frag _ _ _ _ _ F1) as (p2 & f2 & E2 & L2 & S2 & F2 & F2'). unfold c_plus. rewrite E2. cbn [bind].
    eexists p2, _, [(2 * length p1 + 1)%nat]. split; [reflexivity|]. split; [lia|]. split; [intros q Hq; rewrite S2 by exact Hq; apply S1, Hq|].
    eapply frag_weaken; [apply F2'|]. intros P n (l & i & A1 & A2 & <- & A3 & C). eapply K_plus; eassumption.
  - (* quest *)
    cbn [re_ok no_repeat] in Ok, Nr. destruct (IH p Ok Nr Lp) as (p1 & f1 & H1 & E1 & L1 & S1 & F1). rewrite E1. cbn [bind].
    destruct (quest_frag _ _ _ _ _ F1) as (p2 & f2 & H2 & E2 & L2 & S2 & F2). rewrite E2.
    exists p2, f2, H2. split; [reflexivity|]. split; [lia|]. split; [intros q Hq; rewrite S2 by exact Hq; apply S1, Hq|].
    eapply frag_weaken; [exact F2|]. intros P n (i & A1 & A2 & <- & C). eapply K_quest; eassumption.
  - contradiction.
  - (* concatenation *)
    destruct Ok as [Oa Ob]. destruct Nr as [Na Nb].
    destruct (IHa p Oa Na Lp) as (p1 & f1 & H1 & E1 & L1 & S1 & F1). rewrite E1. cbn [bind].
    destruct (IHb p1 Ob Nb ltac:(lia)) as (p2 & f2 & H2 & E2 & L2 & S2 & F2). rewrite E2. cbn [bind].
    assert (F1' : frag_ok (length p) (length p1) p2 f1 H1 (Kcode a)). { apply (frag_ext _ _ p1); [exact F1|lia|]. intros q Hq. apply S2. lia. }
    destruct (cat_frag _ _ _ _ _ _ _ _ _ _ F1' F2) as (p3 & f3 & E3 & I3 & L3 & S3 & F3). rewrite E3.
    exists p3, f3, H2. split; [reflexivity|]. split; [lia|]. split; [intros q Hq; rewrite S3, S2 by lia; apply S1, Hq|].
    rewrite L3. eapply frag_weaken; [exact F3|]. intros P n (m & C1 & C2). eapply K_cat; eassumption.
Qed.

(** the whole program *)
Theorem Compile_ok re : re_ok re -> no_repeat re -> exists p start n,
  Compile re = Ret (p, start) /\ wf p /\ tgt p start /\ Code p re start n /\ (exists x, nth_error p n = Some x /\ Op x = InstMatch) /\ (2 < length p)%nat.
Proof.
  intros Ok Nr. destruct (compile_frag re [mkInst InstFail 0 0 []] Ok Nr ltac:(cbn; lia)) as (p1 & f & H & E & L & S & F). cbn [length] in *.
  unfold Compile. rewrite E. cbn [bind]. cbv zeta. set (q := p1 ++ [mkInst InstMatch 0 0 []]).
  assert (Lq : length q = Datatypes.S (length p1)) by (unfold q; rewrite app_length; cbn; lia).
  assert (Nq : nth_error q (length p1) = Some (mkInst InstMatch 0 0 [])). { unfold q. rewrite nth_error_app2 by lia. rewrite Nat.sub_diag. reflexivity. }
  assert (F' : frag_ok 1 (length p1) q f H (Kcode re)). { apply (frag_ext _ _ p1); [exact F|lia|]. intros k Hk. unfold q. apply nth_error_app1. lia. }
  replace (length q - 1)%nat with (length p1) by lia.
  destruct (patch_ok q (length p1) H _ _ (Datatypes.S (2 * length q)) (fk_linked _ _ _ _ _ _ F') (fk_nodup _ _ _ _ _ _ F') (H_len _ _ _ _ _ _ F')) as (p & Ep & Lp & O & X1 & X2).
  rewrite Ep. cbn [bind]. exists p, (f_i f), (length p1). split; [reflexivity|].
  destruct F' as [A B C D Nd Fr G Cd J].
  assert (Same : forall k, ~ (1 <= k < length p1)%nat -> nth_error p k = nth_error q k).
  { intros k Hk. destruct (nth_error q k) as [i|] eqn:Ei.
    - apply (inst_eq q p k i Ei (O k)); apply X2; intros Q; apply Fr in Q; [rewrite (proj1 (div2_even k)) in Q|rewrite (proj1 (div2_odd k)) in Q]; contradiction.
    - apply nth_error_None in Ei. apply nth_error_None. lia. }
  assert (Nm : nth_error p (length p1) = Some (mkInst InstMatch 0 0 [])) by (rewrite Same by lia; exact Nq).
  (* the instructions in the middle *)
  assert (Mid : forall k i, (1 <= k < length p1)%nat -> nth_error p k = Some i -> op_fine i /\ (1 <= Out i <= length p1)%nat /\ (Op i = InstAlt -> (1 <= Arg i <= length p1)%nat)).
  { intros k i Hk Hi.
    assert (Eq : exists i0, nth_error q k = Some i0) by (destruct (nth_error q k) eqn:Q; [eauto|apply nth_error_None in Q; lia]).
    destruct Eq as (i0 & Ei0). destruct (J k i0 Hk Ei0) as (J1 & J2 & J3).
    pose proof (O k) as Ok'. unfold ops in Ok'. rewrite Hi, Ei0 in Ok'. cbn in Ok'. injection Ok' as Oo Or.
    assert (Jump : forall h x x0, fld q h = Some x0 -> fld p h = Some x -> jump_ok 1 (length p1) H h x0 -> (1 <= x <= length p1)%nat).
    { intros h x x0 Fh Fh' Q. destruct (in_dec Nat.eq_dec h H) as [Q'|Q']; [rewrite (X1 h Q') in Fh'; injection Fh' as <-; lia|].
      rewrite (X2 h Q'), Fh in Fh'. injection Fh' as <-. destruct Q as [Q|Q]; [contradiction|lia]. }
    assert (Arg_eq : Op i <> InstAlt -> Arg i = Arg i0).
    { intros Na. assert (Q : ~ In (2 * k + 1)%nat H).
      { intros Q. apply Na. rewrite Oo. apply (G _ _ Q); [destruct (div2_odd k) as [-> _]; exact Ei0|apply div2_odd]. }
      specialize (X2 _ Q). rewrite (fld_arg _ _ _ Hi), (fld_arg _ _ _ Ei0) in X2. congruence. }
    split; [|split].
    - destruct J1 as [J1 J1']. split; [rewrite Oo; exact J1|]. rewrite Oo. intros Hr. destruct (J1' Hr) as (g & Hg & He). exists g. split; [|exact He].
      intros c. rewrite <- Hg. unfold MatchRune. rewrite Oo, Or, Arg_eq; [reflexivity|]. rewrite Oo. destruct (Op i0); discriminate.
    - apply (Jump (2 * k)%nat (Out i) (Out i0)); [apply fld_out; exact Ei0|apply fld_out; exact Hi|exact J2].
    - intros Oa. apply (Jump (2 * k + 1)%nat (Arg i) (Arg i0)); [apply fld_arg; exact Ei0|apply fld_arg; exact Hi|apply J3; congruence]. }
  assert (Tg : forall x, (1 <= x <= length p1)%nat -> tgt p x).
  { intros x Hx. split; [lia|]. destruct (Nat.eq_dec x (length p1)) as [->|Nx]; [eexists; split; [exact Nm|discriminate]|].
    destruct (nth_error p x) as [i|] eqn:Ei; [|apply nth_error_None in Ei; lia]. exists i. split; [reflexivity|].
    destruct (Mid x i ltac:(lia) Ei) as ((M & _) & _). intros Q. rewrite Q in M. exact M. }
  assert (N0 : nth_error p 0 = Some (mkInst InstFail 0 0 [])).
  { rewrite Same by lia. unfold q. rewrite nth_error_app1 by lia. rewrite S by lia. reflexivity. }
  split; [|split; [|split; [|split]]].
  - intros pc i Hi. destruct (Nat.eq_dec pc 0) as [->|N1]; [rewrite N0 in Hi; injection Hi as <-; repeat split; discriminate|].
    destruct (Nat.eq_dec pc (length p1)) as [->|N2]; [rewrite Nm in Hi; injection Hi as <-; repeat split; discriminate|].
    assert (Lpc : (pc < length p)%nat) by (apply nth_error_Some; congruence).
    destruct (Mid pc i ltac:(lia) Hi) as ((M1 & M2) & M3 & M4). split; [intros Q; rewrite Q in M1; exact M1|]. split; [|exact M2].
    destruct (Op i); try exact I; try (apply Tg; exact M3); try contradiction. split; apply Tg; [exact M3|apply M4; reflexivity].
  - apply Tg. lia.
  - apply Cd. split; [|split].
    + intros k Hk. apply O.
    + intros h Hh Nh. apply X2. exact Nh.
    + intros h Hh. apply X1. exact Hh.
  - eexists. split; [exact Nm|reflexivity].
  - lia.
Qed.
