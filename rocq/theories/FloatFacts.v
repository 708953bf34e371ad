(** FloatFacts.v - rounding is monotone, odd, exact on its grid, and its error is half a unit in the last place. *)
From Coq Require Import QArith Qpower Qround Qabs Qminmax Lqa Lia.
From Verif Require Import Base Float.
Open Scope Q_scope.

(** ** Powers of two *)
Lemma two_nz : ~ 2 == 0. Proof. discriminate. Qed.
Lemma pow_add a b : Qpower 2 (a + b) == Qpower 2 a * Qpower 2 b. Proof. apply Qpower_plus, two_nz. Qed.
Lemma pow_Z e : (0 <= e)%Z -> Qpower 2 e == inject_Z (2 ^ e).
Proof. intros H. rewrite Zpower_Qpower by exact H. reflexivity. Qed.
Lemma pow_inv e : Qpower 2 e * Qpower 2 (- e) == 1.
Proof. rewrite <- pow_add. replace (e + - e)%Z with 0%Z by lia. reflexivity. Qed.
Lemma pow_pos e : 0 < Qpower 2 e.
Proof.
  assert (A : 0 <= Qpower 2 e) by (apply Qpower_pos; lra). assert (B := pow_inv e).
  destruct (Qle_lt_or_eq _ _ A) as [L|E]; [exact L|]. rewrite <- E in B. lra.
Qed.
Lemma pow_mono a b : (a <= b)%Z -> Qpower 2 a <= Qpower 2 b.
Proof.
  intros H. replace b with (a + (b - a))%Z by lia. rewrite pow_add, (pow_Z (b - a)) by lia.
  assert (1 <= inject_Z (2 ^ (b - a))) by (change 1 with (inject_Z 1); rewrite <- Zle_Qle; pose proof (Z.pow_pos_nonneg 2 (b - a)); lia).
  pose proof (pow_pos a). nra.
Qed.
Lemma pow_S a : Qpower 2 (a + 1) == 2 * Qpower 2 a.
Proof. rewrite pow_add. change (Qpower 2 1) with 2. ring. Qed.

(** ** The nearest integer *)
Lemma rne_near q : Qabs (q - inject_Z (rne q)) <= 1 # 2 /\ (Qabs (q - inject_Z (rne q)) == 1 # 2 -> Z.even (rne q) = true).
Proof.
  unfold rne. pose proof (Qfloor_le q) as F1. pose proof (Qlt_floor q) as F2. rewrite inject_Z_plus in F2. change (inject_Z 1) with 1 in F2.
  set (f := Qfloor q) in *.
  destruct (Qcompare_spec (q - inject_Z f) (1 # 2)) as [E|E|E].
  - destruct (Z.even f) eqn:Ev.
    + split; [rewrite Qabs_pos; lra|intros _; exact Ev].
    + rewrite inject_Z_plus. change (inject_Z 1) with 1. split; [rewrite Qabs_neg; lra|]. intros _. rewrite Z.even_add, Ev. reflexivity.
  - split; [rewrite Qabs_pos; lra|]. rewrite Qabs_pos by lra. lra.
  - rewrite inject_Z_plus. change (inject_Z 1) with 1. split; [rewrite Qabs_neg; lra|]. rewrite Qabs_neg by lra. lra.
Qed.
Lemma rne_unique q n : Qabs (q - inject_Z n) <= 1 # 2 -> (Qabs (q - inject_Z n) == 1 # 2 -> Z.even n = true) -> n = rne q.
Proof.
  intros A E. destruct (rne_near q) as [A' E']. set (m := rne q) in *. clearbody m.
  apply Qabs_Qle_condition in A as [A1 A2]. apply Qabs_Qle_condition in A' as [B1 B2].
  assert (L1 : inject_Z n <= inject_Z (m + 1)) by (rewrite inject_Z_plus; change (inject_Z 1) with 1; lra).
  assert (L2 : inject_Z m <= inject_Z (n + 1)) by (rewrite inject_Z_plus; change (inject_Z 1) with 1; lra).
  rewrite <- Zle_Qle in L1, L2. assert (C : (n = m \/ n = m + 1 \/ m = n + 1)%Z) by lia. destruct C as [C|[C|C]]; [exact C| |].
  - subst n. rewrite inject_Z_plus in *. change (inject_Z 1) with 1 in *.
    assert (X : q - inject_Z m == 1 # 2) by lra. exfalso.
    assert (E1 : Z.even m = true) by (apply E'; rewrite X; reflexivity).
    assert (E2 : Z.even (m + 1) = true) by (apply E; setoid_replace (q - (inject_Z m + 1)) with (- (1 # 2)) by lra; reflexivity).
    rewrite Z.even_add, E1 in E2. discriminate E2.
  - subst m. rewrite inject_Z_plus in *. change (inject_Z 1) with 1 in *.
    assert (X : q - inject_Z n == 1 # 2) by lra. exfalso.
    assert (E1 : Z.even n = true) by (apply E; rewrite X; reflexivity).
    assert (E2 : Z.even (n + 1) = true) by (apply E'; setoid_replace (q - (inject_Z n + 1)) with (- (1 # 2)) by lra; reflexivity).
    rewrite Z.even_add, E1 in E2. discriminate E2.
Qed.
Lemma rne_comp a b : a == b -> rne a = rne b.
Proof.
  intros E. apply rne_unique; destruct (rne_near a) as [A B].
  - rewrite <- E. exact A.
  - rewrite <- E. exact B.
Qed.
Lemma rne_opp q : rne (- q) = (- rne q)%Z.
Proof.
  symmetry. destruct (rne_near q) as [A B]. assert (X : - q - inject_Z (- rne q) == - (q - inject_Z (rne q))) by (rewrite inject_Z_opp; ring).
  apply rne_unique; rewrite X, Qabs_opp; [exact A|]. intros E. rewrite Z.even_opp. exact (B E).
Qed.
Lemma rne_Z n : rne (inject_Z n) = n.
Proof.
  symmetry. assert (X : inject_Z n - inject_Z n == 0) by ring.
  apply rne_unique; rewrite X; [discriminate|]. intros E. exfalso. change (Qabs 0) with 0 in E. lra.
Qed.
Lemma rne_mono a b : a <= b -> (rne a <= rne b)%Z.
Proof.
  intros L. destruct (rne_near a) as [A EA], (rne_near b) as [C EC].
  apply Qabs_Qle_condition in A as [A1 A2]. apply Qabs_Qle_condition in C as [C1 C2].
  destruct (Z_le_gt_dec (rne a) (rne b)) as [H|H]; [exact H|]. exfalso.
  assert (K : inject_Z (rne b + 1) <= inject_Z (rne a)) by (rewrite <- Zle_Qle; lia). rewrite inject_Z_plus in K. change (inject_Z 1) with 1 in K.
  assert (E : a == b) by lra. rewrite (rne_comp a b E) in H. lia.
Qed.
Lemma rne_le a n : a <= inject_Z n -> (rne a <= n)%Z. Proof. intros H. rewrite <- (rne_Z n). apply rne_mono. exact H. Qed.
Lemma rne_ge a n : inject_Z n <= a -> (n <= rne a)%Z. Proof. intros H. rewrite <- (rne_Z n). apply rne_mono. exact H. Qed.

(** ** The leading digit *)
Lemma flog2_spec q : 0 < q -> Qpower 2 (flog2 q) <= q /\ q < Qpower 2 (flog2 q + 1).
Proof.
  intros P. destruct q as [n d]. assert (Pn : (0 < n)%Z) by (unfold Qlt in P; cbn in P; lia).
  unfold flog2. cbn [Qnum Qden]. set (a := Z.log2 n). set (b := Z.log2 (Zpos d)).
  pose proof (Z.log2_spec n Pn) as [N1 N2]. pose proof (Z.log2_spec (Zpos d) eq_refl) as [D1 D2]. fold a in N1, N2. fold b in D1, D2.
  assert (A0 : (0 <= a)%Z) by apply Z.log2_nonneg. assert (B0 : (0 <= b)%Z) by apply Z.log2_nonneg.
  assert (Q : (n # d) * inject_Z (Zpos d) == inject_Z n) by (unfold Qeq, Qmult, inject_Z; cbn; lia).
  assert (Dp : 0 < inject_Z (Zpos d)) by reflexivity.
  rewrite Zle_Qle, <- pow_Z in N1 by lia. rewrite Zlt_Qlt, <- pow_Z in N2 by lia. rewrite Zle_Qle, <- pow_Z in D1 by lia. rewrite Zlt_Qlt, <- pow_Z in D2 by lia.
  unfold Z.succ in N2, D2. rewrite pow_S in N2, D2.
  pose proof (pow_pos a) as Pa. pose proof (pow_pos b) as Pb. pose proof (pow_pos (a - b)) as Pab.
  assert (Ea : Qpower 2 a == Qpower 2 (a - b) * Qpower 2 b) by (rewrite <- pow_add; replace (a - b + b)%Z with a by lia; reflexivity).
  set (x := n # d) in *. set (X := inject_Z n) in *. set (Y := inject_Z (Zpos d)) in *. clearbody x X Y.
  assert (Hi : x < 2 * Qpower 2 (a - b)).
  { apply Qnot_le_lt. intros K. assert (2 * Qpower 2 (a - b) * Y <= x * Y) by (apply Qmult_le_compat_r; lra).
    assert (Qpower 2 (a - b) * Qpower 2 b <= Qpower 2 (a - b) * Y) by nra. lra. }
  assert (Lo : Qpower 2 (a - b) < 2 * x).
  { apply Qnot_le_lt. intros K. assert (2 * x * Y <= Qpower 2 (a - b) * Y) by (apply Qmult_le_compat_r; lra).
    assert (Qpower 2 (a - b) * Y < Qpower 2 (a - b) * (2 * Qpower 2 b)) by (apply Qmult_lt_l; lra). lra. }
  destruct (Qle_bool (Qpower 2 (a - b)) x) eqn:E.
  - apply Qle_bool_iff in E. rewrite pow_S. split; [exact E|exact Hi].
  - replace (a - b - 1 + 1)%Z with (a - b)%Z by lia. assert (x < Qpower 2 (a - b)).
    { apply Qnot_le_lt. intros K. apply Qle_bool_iff in K. congruence. }
    split; [|assumption]. assert (Es : Qpower 2 (a - b) == 2 * Qpower 2 (a - b - 1)) by (rewrite <- pow_S; replace (a - b - 1 + 1)%Z with (a - b)%Z by lia; reflexivity).
    lra.
Qed.
Lemma pow_lt_inv a b : Qpower 2 a < Qpower 2 b -> (a < b)%Z.
Proof. intros H. destruct (Z_lt_ge_dec a b) as [L|L]; [exact L|]. pose proof (pow_mono b a ltac:(lia)). lra. Qed.
Lemma flog2_mono a b : 0 < a -> a <= b -> (flog2 a <= flog2 b)%Z.
Proof.
  intros P L. destruct (flog2_spec a P) as [A1 A2], (flog2_spec b ltac:(lra)) as [B1 B2].
  assert (K : Qpower 2 (flog2 a) < Qpower 2 (flog2 b + 1)) by lra. apply pow_lt_inv in K. lia.
Qed.
Lemma flog2_comp a b : 0 < a -> a == b -> flog2 a = flog2 b.
Proof. intros P E. apply Z.le_antisymm; apply flog2_mono; lra. Qed.
Lemma flog2_lt a k : 0 < a -> a < Qpower 2 k -> (flog2 a < k)%Z.
Proof. intros P L. destruct (flog2_spec a P) as [A _]. apply pow_lt_inv. lra. Qed.
Lemma flog2_ge a k : Qpower 2 k <= a -> (k <= flog2 a)%Z.
Proof. intros L. pose proof (pow_pos k). destruct (flog2_spec a ltac:(lra)) as [_ A]. assert (K : Qpower 2 k < Qpower 2 (flog2 a + 1)) by lra. apply pow_lt_inv in K. lia. Qed.

(** ** Rounding *)
Section Rounding.
Variables prec emin : Z.
Hypothesis Hp : (1 <= prec)%Z.
Local Notation rd := (fround prec emin).
Local Notation ex := (fexp prec emin).

Lemma nz_abs q : ~ q == 0 -> 0 < Qabs q.
Proof. intros N. apply Qabs_case; intros; lra. Qed.
Lemma fround_0 q : q == 0 -> rd q == 0.
Proof. intros E. unfold fround. rewrite (proj2 (Qeq_bool_iff q 0) E). reflexivity. Qed.
Lemma fround_nz q : ~ q == 0 -> rd q == inject_Z (rne (q * Qpower 2 (- ex q))) * Qpower 2 (ex q).
Proof. intros N. unfold fround. destruct (Qeq_bool q 0) eqn:E; [apply Qeq_bool_iff in E; contradiction|]. apply Qred_correct. Qed.
Lemma ex_comp a b : ~ a == 0 -> a == b -> ex a = ex b.
Proof. intros N E. unfold fexp. rewrite (flog2_comp (Qabs a) (Qabs b)); [reflexivity|apply nz_abs, N|rewrite E; reflexivity]. Qed.
Lemma fround_comp a b : a == b -> rd a == rd b.
Proof.
  intros E. destruct (Qeq_dec a 0) as [Z|N]; [rewrite !fround_0; [reflexivity|rewrite <- E; exact Z|exact Z]|].
  assert (Nb : ~ b == 0) by (rewrite <- E; exact N). rewrite !fround_nz by assumption. rewrite (ex_comp a b N E).
  rewrite (rne_comp (a * Qpower 2 (- ex b)) (b * Qpower 2 (- ex b))) by (rewrite E; reflexivity). reflexivity.
Qed.
Lemma fround_opp a : rd (- a) == - rd a.
Proof.
  destruct (Qeq_dec a 0) as [Z|N]; [rewrite !fround_0; [reflexivity|exact Z|rewrite Z; reflexivity]|].
  assert (Nb : ~ - a == 0) by (intros E; apply N; lra). rewrite !fround_nz by assumption.
  assert (E : ex (- a) = ex a) by (unfold fexp; rewrite (flog2_comp (Qabs (- a)) (Qabs a)); [reflexivity|apply nz_abs, Nb|apply Qabs_opp]).
  rewrite E. rewrite (rne_comp (- a * Qpower 2 (- ex a)) (- (a * Qpower 2 (- ex a)))) by ring. rewrite rne_opp, inject_Z_opp. ring.
Qed.
(** Comparison with a number on the grid. *)
Lemma grid n e a : (ex a <= e)%Z -> inject_Z n * Qpower 2 e * Qpower 2 (- ex a) == inject_Z (n * 2 ^ (e - ex a)).
Proof. intros H. rewrite inject_Z_mult, <- pow_Z by lia. rewrite <- Qmult_assoc, <- pow_add. reflexivity. Qed.
Lemma back x e : x * Qpower 2 (- e) * Qpower 2 e == x.
Proof. rewrite <- Qmult_assoc, (Qmult_comm (Qpower 2 (- e))), pow_inv. ring. Qed.
Lemma fround_le a n e : (~ a == 0 -> (ex a <= e)%Z) -> a <= inject_Z n * Qpower 2 e -> rd a <= inject_Z n * Qpower 2 e.
Proof.
  intros He L. destruct (Qeq_dec a 0) as [Z|N]; [rewrite (fround_0 a Z); rewrite Z in L; exact L|]. rewrite fround_nz by exact N.
  specialize (He N). assert (K : a * Qpower 2 (- ex a) <= inject_Z (n * 2 ^ (e - ex a))).
  { rewrite <- (grid n e a He). apply Qmult_le_compat_r; [exact L|apply Qlt_le_weak, pow_pos]. }
  apply rne_le in K. rewrite Zle_Qle in K. rewrite <- (back (inject_Z n * Qpower 2 e) (ex a)), (grid n e a He).
  apply Qmult_le_compat_r; [exact K|apply Qlt_le_weak, pow_pos].
Qed.
Lemma fround_ge a n e : (~ a == 0 -> (ex a <= e)%Z) -> inject_Z n * Qpower 2 e <= a -> inject_Z n * Qpower 2 e <= rd a.
Proof.
  intros He L. destruct (Qeq_dec a 0) as [Z|N]; [rewrite (fround_0 a Z); rewrite Z in L; exact L|]. rewrite fround_nz by exact N.
  specialize (He N). assert (K : inject_Z (n * 2 ^ (e - ex a)) <= a * Qpower 2 (- ex a)).
  { rewrite <- (grid n e a He). apply Qmult_le_compat_r; [exact L|apply Qlt_le_weak, pow_pos]. }
  apply rne_ge in K. rewrite Zle_Qle in K. rewrite <- (back (inject_Z n * Qpower 2 e) (ex a)), (grid n e a He).
  apply Qmult_le_compat_r; [exact K|apply Qlt_le_weak, pow_pos].
Qed.
Lemma fround_exact a n e : a == inject_Z n * Qpower 2 e -> (~ a == 0 -> (ex a <= e)%Z) -> rd a == a.
Proof.
  intros E He. apply Qle_antisym.
  - rewrite E at 2. apply fround_le; [exact He|rewrite E; apply Qle_refl].
  - rewrite E at 1. apply fround_ge; [exact He|rewrite E; apply Qle_refl].
Qed.
Lemma fround_pos a : 0 <= a -> 0 <= rd a.
Proof.
  intros H. pose proof (fround_ge a 0 (ex a) ltac:(intros _; lia)) as K. change (inject_Z 0) with 0 in K. rewrite Qmult_0_l in K. exact (K H).
Qed.
Lemma fround_mono_pos a b : 0 < a -> a <= b -> rd a <= rd b.
Proof.
  intros P L. assert (Na : ~ a == 0) by lra. assert (Nb : ~ b == 0) by lra.
  assert (Fa : flog2 (Qabs a) = flog2 a) by (apply flog2_comp; [apply nz_abs, Na|apply Qabs_pos; lra]).
  assert (Fb : flog2 (Qabs b) = flog2 b) by (apply flog2_comp; [apply nz_abs, Nb|apply Qabs_pos; lra]).
  pose proof (flog2_mono a b P L) as M. assert (Me : (ex a <= ex b)%Z) by (unfold fexp; lia).
  destruct (Z.eq_dec (ex a) (ex b)) as [E|E].
  - rewrite !fround_nz by assumption. rewrite E. apply Qmult_le_compat_r; [|apply Qlt_le_weak, pow_pos]. rewrite <- Zle_Qle. apply rne_mono.
    apply Qmult_le_compat_r; [exact L|apply Qlt_le_weak, pow_pos].
  - assert (Eb : ex b = (flog2 b - (prec - 1))%Z) by (unfold fexp in *; lia).
    assert (Lt : (flog2 a < flog2 b)%Z) by (unfold fexp in *; lia).
    destruct (flog2_spec a P) as [_ A2], (flog2_spec b ltac:(lra)) as [B1 _].
    pose proof (pow_mono (flog2 a + 1) (flog2 b) ltac:(lia)) as Mp.
    apply Qle_trans with (inject_Z 1 * Qpower 2 (flog2 b)).
    + apply fround_le; [intros _; lia|]. change (inject_Z 1) with 1. lra.
    + apply fround_ge; [intros _; lia|]. change (inject_Z 1) with 1. lra.
Qed.
Lemma fround_mono a b : a <= b -> rd a <= rd b.
Proof.
  intros L. destruct (Qlt_le_dec 0 a) as [P|P]; [apply fround_mono_pos; assumption|].
  destruct (Qlt_le_dec b 0) as [Q|Q].
  - assert (K : rd (- b) <= rd (- a)) by (apply fround_mono_pos; lra). rewrite !fround_opp in K. lra.
  - pose proof (fround_pos b Q). pose proof (fround_pos (- a) ltac:(lra)) as K. rewrite fround_opp in K. lra.
Qed.
(** The error. *)
Lemma fround_err a : ~ a == 0 -> Qabs (rd a - a) <= Qpower 2 (ex a - 1).
Proof.
  intros N. rewrite fround_nz by exact N. destruct (rne_near (a * Qpower 2 (- ex a))) as [A _]. pose proof (pow_pos (ex a)) as P.
  assert (E : inject_Z (rne (a * Qpower 2 (- ex a))) * Qpower 2 (ex a) - a == - (a * Qpower 2 (- ex a) - inject_Z (rne (a * Qpower 2 (- ex a)))) * Qpower 2 (ex a)).
  { setoid_replace (- (a * Qpower 2 (- ex a) - inject_Z (rne (a * Qpower 2 (- ex a)))) * Qpower 2 (ex a))
      with (inject_Z (rne (a * Qpower 2 (- ex a))) * Qpower 2 (ex a) - a * Qpower 2 (- ex a) * Qpower 2 (ex a)) by ring. rewrite back. reflexivity. }
  rewrite E, Qabs_Qmult, Qabs_opp. rewrite (Qabs_pos (Qpower 2 (ex a))) by lra.
  assert (S : Qpower 2 (ex a) == 2 * Qpower 2 (ex a - 1)) by (rewrite <- pow_S; replace (ex a - 1 + 1)%Z with (ex a) by lia; reflexivity).
  rewrite S in *. pose proof (pow_pos (ex a - 1)). nra.
Qed.
Lemma fround_abs a k : Qabs a < Qpower 2 k -> (emin <= k - prec)%Z -> Qabs (rd a - a) <= Qpower 2 (k - prec - 1).
Proof.
  intros L He. destruct (Qeq_dec a 0) as [Z|N].
  - assert (E : rd a - a == 0) by (rewrite (fround_0 a Z), Z; reflexivity). rewrite E. change (Qabs 0) with 0. apply Qlt_le_weak, pow_pos.
  - eapply Qle_trans; [apply fround_err; exact N|]. apply pow_mono. pose proof (flog2_lt (Qabs a) k (nz_abs a N) L). unfold fexp. lia.
Qed.
Lemma fround_rel a : Qpower 2 (emin + prec - 1) <= a -> Qabs (rd a - a) <= a * Qpower 2 (- prec).
Proof.
  intros L. pose proof (pow_pos (emin + prec - 1)). assert (N : ~ a == 0) by lra. eapply Qle_trans; [apply fround_err; exact N|].
  assert (F : flog2 (Qabs a) = flog2 a) by (apply flog2_comp; [apply nz_abs, N|apply Qabs_pos; lra]).
  pose proof (flog2_ge a _ L) as G. assert (E : ex a = (flog2 a - (prec - 1))%Z) by (unfold fexp; lia).
  destruct (flog2_spec a ltac:(lra)) as [A _]. rewrite E. replace (flog2 a - (prec - 1) - 1)%Z with (flog2 a + - prec)%Z by lia.
  rewrite pow_add. apply Qmult_le_compat_r; [exact A|apply Qlt_le_weak, pow_pos].
Qed.
Lemma ex_bound a : ~ a == 0 -> Qabs a < Qpower 2 (ex a + prec).
Proof.
  intros N. destruct (flog2_spec (Qabs a) (nz_abs a N)) as [_ B]. eapply Qlt_le_trans; [exact B|]. apply pow_mono. unfold fexp. lia.
Qed.
Lemma sig_bound a : ~ a == 0 -> (Z.abs (rne (a * Qpower 2 (- ex a))) <= 2 ^ prec)%Z.
Proof.
  intros N. pose proof (ex_bound a N) as B. assert (K : Qabs a * Qpower 2 (- ex a) <= inject_Z (2 ^ prec)).
  { rewrite <- pow_Z by lia. assert (X : Qpower 2 prec == Qpower 2 (ex a + prec) * Qpower 2 (- ex a)).
    { rewrite <- pow_add. replace (ex a + prec + - ex a)%Z with prec by lia. reflexivity. }
    rewrite X. apply Qmult_le_compat_r; [lra|apply Qlt_le_weak, pow_pos]. }
  pose proof (pow_pos (- ex a)) as P. pose proof (Qle_Qabs a) as A1. pose proof (Qle_Qabs (- a)) as A2. rewrite Qabs_opp in A2.
  assert (K1 : a * Qpower 2 (- ex a) <= inject_Z (2 ^ prec)).
  { eapply Qle_trans; [|exact K]. apply Qmult_le_compat_r; lra. }
  assert (K2 : inject_Z (- 2 ^ prec) <= a * Qpower 2 (- ex a)).
  { rewrite inject_Z_opp. assert (- a * Qpower 2 (- ex a) <= Qabs a * Qpower 2 (- ex a)) by (apply Qmult_le_compat_r; lra). lra. }
  apply rne_le in K1. apply rne_ge in K2. lia.
Qed.
Lemma canonical_of n e : (emin <= e)%Z -> (Z.abs n <= 2 ^ prec)%Z -> exists n' e', (e <= e' <= e + prec)%Z /\ (Z.abs n' < 2 ^ prec)%Z /\ inject_Z n * Qpower 2 e == inject_Z n' * Qpower 2 e'.
Proof.
  intros He Hn. destruct (Z.eq_dec (Z.abs n) (2 ^ prec)) as [E|E].
  - exists (Z.sgn n * 2 ^ (prec - 1))%Z, (e + 1)%Z. split; [lia|].
    assert (S : (2 ^ prec = 2 * 2 ^ (prec - 1))%Z) by (rewrite <- Z.pow_succ_r by lia; f_equal; lia).
    pose proof (Z.pow_pos_nonneg 2 (prec - 1) ltac:(lia) ltac:(lia)). split; [lia|].
    rewrite pow_S. replace n with (Z.sgn n * 2 ^ (prec - 1) * 2)%Z at 1 by lia. rewrite inject_Z_mult. change (inject_Z 2) with 2. ring.
  - exists n, e. split; [lia|]. split; [lia|reflexivity].
Qed.
Lemma rep_exact n e : (emin <= e)%Z -> (Z.abs n < 2 ^ prec)%Z -> rd (inject_Z n * Qpower 2 e) == inject_Z n * Qpower 2 e.
Proof.
  intros He Hn. apply (fround_exact _ n e); [reflexivity|]. intros N.
  assert (L : (flog2 (Qabs (inject_Z n * Qpower 2 e)) < prec + e)%Z); [|unfold fexp; lia].
  apply flog2_lt; [apply nz_abs, N|]. rewrite Qabs_Qmult, pow_add, (Qabs_pos (Qpower 2 e)) by (apply Qlt_le_weak, pow_pos).
  apply Qmult_lt_compat_r; [apply pow_pos|]. rewrite pow_Z by lia. change (Qabs (inject_Z n)) with (inject_Z (Z.abs n)). rewrite <- Zlt_Qlt. exact Hn.
Qed.
Lemma fround_rep a : exists n e, (emin <= e)%Z /\ (Z.abs n < 2 ^ prec)%Z /\ rd a == inject_Z n * Qpower 2 e.
Proof.
  destruct (Qeq_dec a 0) as [Z|N].
  - exists 0%Z, emin. split; [lia|]. split; [pose proof (Z.pow_pos_nonneg 2 prec ltac:(lia) ltac:(lia)); lia|]. rewrite (fround_0 a Z). change (inject_Z 0) with 0. ring.
  - destruct (canonical_of (rne (a * Qpower 2 (- ex a))) (ex a) ltac:(unfold fexp; lia) (sig_bound a N)) as (n & e & H1 & H2 & H3).
    exists n, e. assert (emin <= ex a)%Z by (unfold fexp; lia). split; [lia|]. split; [exact H2|]. rewrite fround_nz by exact N. exact H3.
Qed.
Lemma fround_idem a : rd (rd a) == rd a.
Proof.
  destruct (fround_rep a) as (n & e & H1 & H2 & H3). rewrite (fround_comp _ _ H3), H3. apply rep_exact; assumption.
Qed.
End Rounding.
