(** GoRegexpIn.v - proofs about the input of GoRegexp.v: runes, flags, rune classes (for C97). *)
From Verif Require Import Base BaseFacts GoStr GoStrFacts GoStrLit GoStrLitFacts Bip32 GoCodec GoRegexp SpecRegexp.

Lemma get_some {A} (l : list A) i a : nth_error l i = Some a -> get l i = Ret a.
Proof. unfold get. intros ->. reflexivity. Qed.
Lemma get_inv {A} (l : list A) i a : get l i = Ret a -> nth_error l i = Some a.
Proof. unfold get. destruct (nth_error l i); congruence. Qed.
Lemma put_some {A} (l : list A) : forall i a, (i < length l)%nat -> exists l', put l i a = Ret l' /\ length l' = length l /\
  nth_error l' i = Some a /\ forall j, j <> i -> nth_error l' j = nth_error l j.
Proof.
  induction l as [|x l IH]; intros i a H; [cbn in H; lia|]. destruct i as [|i]; cbn.
  - eexists. repeat split. intros [|j] Hj; [easy|reflexivity].
  - destruct (IH i a) as (l' & E & L & N & O). { cbn in H. lia. }
    rewrite E. cbn. eexists. repeat split; cbn; [lia|exact N|].
    intros [|j] Hj; [reflexivity|]. cbn. apply O. lia.
Qed.

Lemma decode_cases a t r w : decode_rune (a :: t) = (r, w) ->
  (Zb a < 128 /\ r = Zb a /\ w = 1%nat) \/
  (128 <= Zb a /\ 128 <= r /\ exists b, nth_error (a :: t) (w - 1) = Some b /\ 128 <= Zb b).
Proof.
  assert (Bnd : forall b : byte, 0 <= Zb b < 256) by apply Zb_range.
  pose proof (Bnd a) as Ba. unfold decode_rune. cbv zeta.
  destruct (Zb a <? 128) eqn:Ea. { intros E. injection E as <- <-. left. repeat split; lia. }
  unfold in_rng, cont, in_rng.
  assert (B0 : forall x : nat, x = 1%nat -> exists b, nth_error (a :: t) (x - 1) = Some b /\ 128 <= Zb b).
  { intros x ->. exists a. split; [reflexivity|lia]. }
  destruct ((194 <=? Zb a) && (Zb a <=? 223)) eqn:E1.
  { destruct t as [|b t]; [intros E; injection E as <- <-; right; repeat split; try lia; apply B0; reflexivity|].
    destruct ((128 <=? Zb b) && (Zb b <=? 191)) eqn:E2; intros E; injection E as <- <-; right; repeat split; try lia;
      [exists b; split; [reflexivity|lia]|apply B0; reflexivity]. }
  destruct ((224 <=? Zb a) && (Zb a <=? 239)) eqn:E2.
  { destruct t as [|b [|c t]]; try (intros E; injection E as <- <-; right; repeat split; try lia; apply B0; reflexivity).
    match goal with |- context [if ?x then _ else _] => destruct x eqn:E3 end;
    intros E; injection E as <- <-; right.
    - repeat split; try lia. + destruct (Zb a =? 224) eqn:Q; lia. + exists c; split; [reflexivity|lia].
    - repeat split; try lia. apply B0; reflexivity. }
  destruct ((240 <=? Zb a) && (Zb a <=? 244)) eqn:E3.
  { destruct t as [|b [|c [|d t]]]; try (intros E; injection E as <- <-; right; repeat split; try lia; apply B0; reflexivity).
    match goal with |- context [if ?x then _ else _] => destruct x eqn:E4 end;
    intros E; injection E as <- <-; right.
    - repeat split; try lia. + destruct (Zb a =? 240) eqn:Q; lia. + exists d; split; [reflexivity|lia].
    - repeat split; try lia. apply B0; reflexivity. }
  intros E; injection E as <- <-; right; repeat split; try lia; apply B0; reflexivity.
Qed.

Lemma skipn_cons_lt {A} (s : list A) i : (i < length s)%nat -> exists a t, skipn i s = a :: t /\ nth_error s i = Some a.
Proof.
  revert i. induction s as [|x s IH]; intros [|i] H; cbn in *; try lia.
  - eauto.
  - apply IH. lia.
Qed.
Lemma nth_error_skipn {A} (s : list A) i k : nth_error (skipn i s) k = nth_error s (i + k).
Proof. revert i. induction s as [|x s IH]; intros [|i]; cbn; try reflexivity. - destruct k; reflexivity. - apply IH. Qed.

(** step *)
Lemma step_end s pos : (length s <= pos)%nat -> step s pos = (-1, O).
Proof. intros H. unfold step. rewrite skipn_all2 by lia. reflexivity. Qed.
Lemma step_decode s pos : (pos < length s)%nat -> step s pos = decode_rune (skipn pos s).
Proof.
  intros H. unfold step. destruct (skipn_cons_lt s pos H) as (a & t & E & _). rewrite E.
  destruct (Zb a <? 128) eqn:Ea; [|reflexivity]. rewrite decode_ascii by lia. reflexivity.
Qed.
Lemma rune_at_step s i c w : rune_at s i c w <-> (i < length s)%nat /\ step s i = (c, w).
Proof. unfold rune_at. split; intros [H E]; split; try exact H; rewrite ?step_decode in *; auto; rewrite <- step_decode; auto. Qed.
Lemma rune_at_facts s i c w : rune_at s i c w -> (1 <= w /\ i + w <= length s)%nat /\ 0 <= c.
Proof.
  intros [H E]. destruct (skipn_cons_lt s i H) as (a & t & Es & _).
  pose proof (decode_rune_width (skipn i s)) as W. rewrite E in W. cbn [snd] in W. rewrite skipn_length in W.
  split; [rewrite Es in W; specialize (W ltac:(discriminate)); lia|].
  rewrite Es in E. pose proof (Zb_range a). destruct (decode_cases _ _ _ _ E) as [(A1 & A2 & _)|(A1 & A2 & _)]; lia.
Qed.
Lemma step_cases s pos : (exists c w, step s pos = (c, w) /\ rune_at s pos c w) \/ ((length s <= pos)%nat /\ step s pos = (-1, O)).
Proof.
  destruct (Nat.lt_ge_cases pos (length s)) as [H|H].
  - left. destruct (step s pos) as [c w] eqn:E. exists c, w. split; [reflexivity|]. rewrite rune_at_step. split; [exact H|exact E].
  - right. split; [exact H|apply step_end; exact H].
Qed.

(** runes up to what the flags see *)
(** In proofs; for bip32/path.go:22, 25, bip32/reg_ver_bytes.go:75. *)
Definition eqv (r r' : Z) : Prop := r = r' \/ 128 <= r /\ 128 <= r'.
Lemma flag_eqv r1 r1' r2 r2' op : eqv r1 r1' -> eqv r2 r2' -> flag_match (r1, r2) op = flag_match (r1', r2') op.
Proof.
  assert (W : forall r r', eqv r r' -> IsWordChar r = IsWordChar r' /\ (r =? 10) = (r' =? 10) /\ (r <? 0) = (r' <? 0)).
  { intros r r' [->|[A B]]; [repeat split|]. unfold IsWordChar. repeat split; lia. }
  intros H1 H2. destruct (W _ _ H1) as (A & B & C). destruct (W _ _ H2) as (A' & B' & C').
  unfold flag_match. rewrite A, B, C, A', B', C'. reflexivity.
Qed.
Lemma decode_last_high p b : nth_error p (length p - 1) = Some b -> 128 <= Zb b -> 128 <= fst (decode_last_rune p).
Proof.
  intros Hb Hh. destruct p as [|x p']; [discriminate|]. set (p := x :: p') in *.
  destruct (decode_last_spec p ltac:(discriminate)) as [W D].
  destruct (decode_last_rune p) as [r w]. cbn [fst snd] in *.
  destruct (skipn_cons_lt p (length p - w)) as (a & t & Es & Na). { lia. }
  rewrite Es in D. destruct (decode_cases _ _ _ _ D) as [(A1 & A2 & A3)|(A1 & A2 & A3)]; [|exact A2].
  subst w. rewrite Na in Hb. injection Hb as ->. lia.
Qed.
Lemma context_start s : context s 0 = (-1, fst (step s 0)).
Proof. reflexivity. Qed.
Lemma nth_error_firstn_lt {A} (s : list A) n k : (k < n)%nat -> nth_error (firstn n s) k = nth_error s k.
Proof. revert n k. induction s as [|x s IH]; intros [|n] [|k] H; cbn; try lia; try reflexivity. apply IH. lia. Qed.
Lemma context_prev s n c : nth_error s n = Some c ->
  fst (context s (S n)) = Zb c /\ Zb c < 128 \/ 128 <= fst (context s (S n)) /\ 128 <= Zb c.
Proof.
  intros H. unfold context. cbn [fst]. rewrite H. destruct (Zb c <? 128) eqn:E; [left; lia|right].
  split; [|lia]. assert (L : (n < length s)%nat) by (apply nth_error_Some; congruence).
  apply (decode_last_high _ c); [|lia]. rewrite firstn_length, Nat.min_l by lia.
  replace (S n - 1)%nat with n by lia. rewrite nth_error_firstn_lt by lia. exact H.
Qed.
Lemma context_next s pos c w : rune_at s pos c w ->
  eqv c (fst (context s (pos + w))) /\ snd (context s (pos + w)) = fst (step s (pos + w)).
Proof.
  intros R. split; [|reflexivity]. pose proof (rune_at_facts _ _ _ _ R) as [[W1 W2] C0].
  destruct R as [H E]. destruct (skipn_cons_lt s pos H) as (a & t & Es & Na). rewrite Es in E.
  replace (pos + w)%nat with (S (pos + (w - 1))) by lia.
  destruct (decode_cases _ _ _ _ E) as [(A1 & A2 & A3)|(A1 & A2 & b & Nb & Hb)].
  - subst w. replace (pos + (1 - 1))%nat with pos by lia.
    destruct (context_prev s pos a Na) as [[X _]|[_ X]]; [left; congruence|lia].
  - rewrite <- Es, nth_error_skipn in Nb. destruct (context_prev s _ b Nb) as [[_ X]|[X _]]; [lia|right; split; assumption].
Qed.
Lemma context_r1_neg s pos : (pos <= length s)%nat -> fst (context s pos) < 0 <-> pos = O.
Proof.
  intros L. split; [|intros ->; cbn; unfold endOfText; lia]. intros H. destruct pos as [|n]; [reflexivity|exfalso].
  destruct (nth_error s n) as [c|] eqn:E; [|apply nth_error_None in E; lia].
  pose proof (Zb_range c). destruct (context_prev s n c E) as [[X _]|[X _]]; lia.
Qed.
Lemma context_r2_neg s pos : (pos <= length s)%nat -> snd (context s pos) < 0 <-> pos = length s.
Proof.
  intros L. change (snd (context s pos)) with (fst (step s pos)).
  destruct (step_cases s pos) as [(c & w & E & R)|[H E]]; rewrite E; cbn [fst].
  - pose proof (rune_at_facts _ _ _ _ R) as [_ C]. destruct R as [R _]. lia.
  - lia.
Qed.

(** flag_match of a union *)
Lemma lt64_bits n : (n <? 64)%nat = true <-> forall k, (6 <= k)%nat -> Nat.testbit n k = false.
Proof.
  rewrite Nat.ltb_lt. split.
  - intros H k Hk. destruct (Nat.eq_dec n 0) as [->|N]; [apply Nat.bits_0|].
    apply Nat.bits_above_log2. apply Nat.lt_le_trans with 6%nat; [|exact Hk]. apply Nat.log2_lt_pow2; [lia|exact H].
  - intros H. destruct (Nat.lt_ge_cases n 64) as [L|L]; [exact L|exfalso].
    assert (N : n <> 0%nat) by lia. pose proof (Nat.bit_log2 n N) as B.
    rewrite H in B; [discriminate|]. change 6%nat with (Nat.log2 64). apply Nat.log2_le_mono. exact L.
Qed.
Lemma lor_lt64 a b : (Nat.lor a b <? 64)%nat = (a <? 64)%nat && (b <? 64)%nat.
Proof.
  apply Bool.eq_iff_eq_true. rewrite Bool.andb_true_iff, !lt64_bits. split.
  - intros H. split; intros k Hk; specialize (H k Hk); rewrite Nat.lor_spec in H; apply Bool.orb_false_elim in H; tauto.
  - intros [A B] k Hk. rewrite Nat.lor_spec, A, B by exact Hk. reflexivity.
Qed.
Lemma flag_lor f a b : flag_match f (Nat.lor a b) = flag_match f a && flag_match f b.
Proof.
  destruct f as [r1 r2]. unfold flag_match. rewrite lor_lt64, !Nat.lor_spec.
  assert (S1 : forall x y c, negb (x || y) || c = (negb x || c) && (negb y || c)) by (intros [] [] []; reflexivity).
  rewrite <- !Bool.orb_assoc, !S1. apply Bool.eq_iff_eq_true. rewrite !Bool.andb_true_iff. tauto.
Qed.
Lemma flag_0 f : flag_match f 0 = true.
Proof. destruct f. unfold flag_match. rewrite !Nat.bits_0. reflexivity. Qed.
Lemma flag_255 f : flag_match f 255 = false.
Proof. destruct f. unfold flag_match. change (255 <? 64)%nat with false. apply Bool.andb_false_r. Qed.
Lemma flag_begin f op : flag_match f op = true -> Nat.testbit op 2 = true -> fst f < 0.
Proof.
  destruct f as [r1 r2]. unfold flag_match. cbn [fst]. intros H B. rewrite B in H.
  rewrite !Bool.andb_true_iff in H. decompose [and] H. cbn in *. lia.
Qed.
Lemma flag_op4 r1 r2 : flag_match (r1, r2) EmptyBeginText = (r1 <? 0).
Proof. unfold flag_match, EmptyBeginText. cbn. rewrite !Bool.andb_true_r. reflexivity. Qed.
Lemma flag_op8 r1 r2 : flag_match (r1, r2) EmptyEndText = (r2 <? 0).
Proof. unfold flag_match, EmptyEndText. cbn. rewrite !Bool.andb_true_r. reflexivity. Qed.

(** rune classes *)
Lemma in_class_idx rs r : in_class rs r <-> exists m lo hi, nth_error rs (2 * m) = Some lo /\ nth_error rs (2 * m + 1) = Some hi /\ lo <= r <= hi.
Proof.
  assert (G : forall n rs, (length rs <= n)%nat -> in_class rs r <->
    exists m lo hi, nth_error rs (2 * m) = Some lo /\ nth_error rs (2 * m + 1) = Some hi /\ lo <= r <= hi).
  { clear rs. induction n as [|n IH]; intros rs L.
    - destruct rs; [|cbn in L; lia]. split; [easy|]. intros (m & lo & hi & H & _). destruct (2 * m)%nat; discriminate.
    - destruct rs as [|lo [|hi rs]].
      + split; [easy|]. intros (m & lo & hi & H & _). destruct (2 * m)%nat; discriminate.
      + split; [easy|]. intros (m & lo' & hi & _ & H & _). replace (2 * m + 1)%nat with (S (2 * m)) in H by lia. cbn in H. destruct (m + (m + 0))%nat; discriminate.
      + cbn [in_class]. rewrite (IH rs) by (cbn in L; lia). split.
        * intros [H|(m & lo' & hi' & A & B & C)]; [exists O, lo, hi; repeat split; easy|].
          exists (S m), lo', hi'. replace (2 * S m)%nat with (S (S (2 * m))) by lia. repeat split; assumption || lia.
        * intros (m & lo' & hi' & A & B & C). destruct m as [|m].
          { cbn in A, B. left. congruence || (injection A as ->; injection B as ->; exact C). }
          right. exists m, lo', hi'. replace (2 * S m)%nat with (S (S (2 * m))) in * by lia. repeat split; assumption || lia. }
  apply (G (length rs)). lia.
Qed.
Lemma class_ok_mono a b rs : class_ok b rs -> a <= b -> class_ok a rs.
Proof. destruct rs as [|lo [|hi rs]]; cbn; [easy|easy|]. intros [H1 H2] L. split; [lia|exact H2]. Qed.
Lemma class_ok_low : forall n rs from r, (length rs <= n)%nat -> class_ok from rs -> in_class rs r -> from <= r.
Proof.
  induction n as [|n IH]; intros rs from r L H C; destruct rs as [|lo [|hi rs]]; cbn in *; try easy; try lia.
  destruct H as [H1 H2]. destruct C as [C|C]; [lia|]. specialize (IH rs _ r ltac:(lia) H2 C). lia.
Qed.
Lemma class_even : forall n rs from, (length rs <= n)%nat -> class_ok from rs -> exists k, length rs = (2 * k)%nat.
Proof.
  induction n as [|n IH]; intros rs from L H; destruct rs as [|lo [|hi rs]]; cbn in L; try lia; try (exists O; reflexivity); try easy.
  destruct H as [_ H]. destruct (IH rs _ ltac:(lia) H) as [k E]. exists (S k). cbn [length]. lia.
Qed.
Lemma pairs_pos_ok : forall n rs from r j, (length rs <= n)%nat -> class_ok from rs ->
  match pairs_pos rs r j with Some _ => in_class rs r | None => ~ in_class rs r end.
Proof.
  induction n as [|n IH]; intros rs from r j L H; destruct rs as [|lo [|hi rs]]; cbn in L; try lia; try easy.
  cbn [pairs_pos in_class class_ok] in *. destruct H as [H1 H2].
  destruct (r <? lo) eqn:E1. { intros [C|C]; [lia|]. pose proof (class_ok_low _ _ _ _ (le_n _) H2 C). lia. }
  destruct (r <=? hi) eqn:E2; [left; lia|]. specialize (IH rs _ r (S j) ltac:(lia) H2).
  destruct (pairs_pos rs r (S j)); [right; exact IH|]. intros [C|C]; [lia|contradiction].
Qed.
Lemma class_order : forall n rs from m m' hi lo', (length rs <= n)%nat -> class_ok from rs -> (m < m')%nat ->
  nth_error rs (2 * m + 1) = Some hi -> nth_error rs (2 * m') = Some lo' -> hi < lo'.
Proof.
  assert (Low : forall n rs from m lo, (length rs <= n)%nat -> class_ok from rs -> nth_error rs (2 * m) = Some lo -> from <= lo).
  { induction n as [|n IH]; intros rs from m lo L H E; destruct rs as [|a [|b rs]]; cbn in L; try lia; try easy; try (destruct (2 * m)%nat; discriminate).
    destruct H as [H1 H2]. destruct m as [|m]; [cbn in E; injection E as ->; lia|].
    replace (2 * S m)%nat with (S (S (2 * m))) in E by lia. cbn in E. specialize (IH rs _ m lo ltac:(lia) H2 E). lia. }
  induction n as [|n IH]; intros rs from m m' hi lo' L H Hm E E'; destruct rs as [|a [|b rs]]; cbn in L; try lia; try easy; try (destruct (2 * m')%nat; discriminate).
  destruct H as [H1 H2]. destruct m' as [|m']; [lia|]. replace (2 * S m')%nat with (S (S (2 * m'))) in E' by lia. cbn [nth_error] in E'.
  destruct m as [|m].
  - cbn in E. injection E as ->. pose proof (Low _ _ _ _ _ (le_n _) H2 E'). lia.
  - replace (2 * S m + 1)%nat with (S (S (2 * m + 1))) in E by lia. cbn [nth_error] in E. apply (IH rs _ m m' hi lo' ltac:(lia) H2 ltac:(lia) E E').
Qed.
Lemma class_lohi : forall n rs from m lo hi, (length rs <= n)%nat -> class_ok from rs ->
  nth_error rs (2 * m) = Some lo -> nth_error rs (2 * m + 1) = Some hi -> lo <= hi.
Proof.
  induction n as [|n IH]; intros rs from m lo hi L H E E'; destruct rs as [|a [|b rs]]; cbn in L; try lia; try easy; try (destruct (2 * m)%nat; discriminate).
  destruct H as [H1 H2]. destruct m as [|m]; [cbn in E, E'; injection E as <-; injection E' as <-; lia|].
  replace (2 * S m)%nat with (S (S (2 * m))) in * by lia. cbn [nth_error plus] in E, E'. apply (IH rs _ m lo hi ltac:(lia) H2 E E').
Qed.
Lemma binary_ok rs r k : class_ok 0 rs -> length rs = (2 * k)%nat -> forall fuel lo hi, (hi - lo < fuel)%nat -> (hi <= k)%nat ->
  (forall m a b, nth_error rs (2 * m) = Some a -> nth_error rs (2 * m + 1) = Some b -> a <= r <= b -> (lo <= m < hi)%nat) ->
  exists o, binary_pos fuel rs r lo hi = Ret o /\ match o with Some _ => in_class rs r | None => ~ in_class rs r end.
Proof.
  intros Hc Lk. induction fuel as [|fuel IH]; intros lo hi F K R; [lia|]. cbn [binary_pos].
  destruct (lo <? hi)%nat eqn:E.
  - assert (Hd : (lo <= Nat.div2 (lo + hi) < hi)%nat).
    { rewrite Nat.div2_div. split; [apply Nat.div_le_lower_bound; lia|apply Nat.div_lt_upper_bound; lia]. }
    set (m := Nat.div2 (lo + hi)) in *. cbv zeta.
    destruct (nth_error rs (2 * m)) as [c|] eqn:E0; [|apply nth_error_None in E0; lia].
    destruct (nth_error rs (2 * m + 1)) as [c1|] eqn:E1; [|apply nth_error_None in E1; lia].
    rewrite (get_some _ _ _ E0). cbn [bind]. destruct (c <=? r) eqn:Ec.
    + rewrite (get_some _ _ _ E1). cbn [bind]. destruct (r <=? c1) eqn:Ec1.
      * eexists. split; [reflexivity|]. cbn. rewrite in_class_idx. exists m, c, c1. repeat split; try assumption; lia.
      * apply IH; try lia. intros m' a b Ea Eb Hab. specialize (R m' a b Ea Eb Hab). split; [|lia].
        destruct (Nat.lt_trichotomy m' m) as [Q|[Q|Q]]; [|subst; assert (c1 = b) by congruence; lia|lia].
        pose proof (class_order _ _ _ _ _ _ _ (le_n _) Hc Q Eb E0). lia.
    + apply IH; try lia. intros m' a b Ea Eb Hab. specialize (R m' a b Ea Eb Hab). split; [lia|].
      destruct (Nat.lt_trichotomy m' m) as [Q|[Q|Q]]; [exact Q|subst; assert (c = a) by congruence; lia|].
      pose proof (class_order _ _ _ _ _ _ _ (le_n _) Hc Q E1 Ea). pose proof (class_lohi _ _ _ _ _ _ (le_n _) Hc E0 E1). lia.
  - eexists. split; [reflexivity|]. cbn. rewrite in_class_idx. intros (m & a & b & Ea & Eb & Hab). specialize (R m a b Ea Eb Hab). lia.
Qed.

Lemma MatchRunePos_class rs r : class_ok 0 rs -> exists o, MatchRunePos 0 rs r = Ret o /\
  match o with Some _ => in_class rs r | None => ~ in_class rs r end.
Proof.
  intros Hc. destruct (class_even _ _ _ (le_n _) Hc) as [k Lk].
  assert (P : forall n, exists o, Ret (pairs_pos rs r n) = Ret o /\ match o with Some _ => in_class rs r | None => ~ in_class rs r end).
  { intros n. eexists. split; [reflexivity|]. apply (pairs_pos_ok _ _ _ _ _ (le_n _) Hc). }
  assert (Bn : exists o, binary_pos (S (length rs)) rs r 0 (Nat.div2 (length rs)) = Ret o /\
    match o with Some _ => in_class rs r | None => ~ in_class rs r end).
  { rewrite Lk, Nat.div2_double. apply (binary_ok rs r k Hc Lk); try lia.
    intros m a b Ea _ _. assert (2 * m < length rs)%nat by (apply nth_error_Some; congruence). lia. }
  unfold MatchRunePos. destruct (length rs) as [|[|[|[|[|[|[|[|[|n]]]]]]]]] eqn:L; try exact Bn; try apply P; try lia.
  - destruct rs as [|lo [|hi [|]]]; cbn in L; try lia. cbn [get nth_error bind]. eexists. split; [reflexivity|].
    destruct ((lo <=? r) && (r <=? hi)) eqn:E; cbn [in_class]; lia.
Qed.
