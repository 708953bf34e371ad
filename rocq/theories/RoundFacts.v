(** RoundFacts.v - fround is rounding to nearest, ties to even. *)
From Coq Require Import QArith Qpower Qround Qabs Lqa Lia ZifyBool.
From Verif Require Import Base SpecSlider SpecFloat Float FloatFacts.
Open Scope Q_scope.

Section Rounding.
Variables prec emin : Z.
Hypothesis Hp : (2 <= prec)%Z.
Local Notation rd := (fround prec emin).
Local Notation ex := (fexp prec emin).

Lemma scale x y e : Qabs (x * Qpower 2 e - y) == Qabs (x - y * Qpower 2 (- e)) * Qpower 2 e.
Proof.
  pose proof (pow_pos e). transitivity (Qabs (x - y * Qpower 2 (- e)) * Qabs (Qpower 2 e)); [|rewrite (Qabs_pos (Qpower 2 e)) by lra; reflexivity]. rewrite <- Qabs_Qmult.
  assert (E : (x - y * Qpower 2 (- e)) * Qpower 2 e == x * Qpower 2 e - y) by (setoid_replace ((x - y * Qpower 2 (- e)) * Qpower 2 e) with (x * Qpower 2 e - y * Qpower 2 (- e) * Qpower 2 e) by ring; rewrite back; reflexivity).
  rewrite E. reflexivity.
Qed.
Lemma int_dist (m n : Z) (q : Q) : m <> n -> Qabs (inject_Z n - q) <= 1 # 2 ->
  Qabs (inject_Z n - q) <= Qabs (inject_Z m - q) /\ (Qabs (inject_Z m - q) == Qabs (inject_Z n - q) -> Qabs (inject_Z n - q) == 1 # 2).
Proof.
  intros N H. assert (D : 1 <= Qabs (inject_Z m - inject_Z n)).
  { rewrite <- inject_Z_opp || idtac. unfold Qminus. rewrite <- inject_Z_opp, <- inject_Z_plus. change (1 <= inject_Z (Z.abs (m + - n))). change 1 with (inject_Z 1). rewrite <- Zle_Qle. lia. }
  revert H D. do 3 (apply Qabs_case; intros ?); intros; split; intros; lra.
Qed.
(** Numbers on the grid of q. *)
Lemma near_grid q m : ~ q == 0 -> Qabs (rd q - q) <= Qabs (inject_Z m * Qpower 2 (ex q) - q) /\
  (~ inject_Z m * Qpower 2 (ex q) == rd q -> Qabs (inject_Z m * Qpower 2 (ex q) - q) == Qabs (rd q - q) -> Z.even (rne (q * Qpower 2 (- ex q))) = true).
Proof.
  intros N. set (e := ex q). set (n := rne (q * Qpower 2 (- e))).
  assert (Er : rd q == inject_Z n * Qpower 2 e) by (apply fround_nz; exact N). rewrite Er.
  pose proof (pow_pos e) as P. destruct (rne_near (q * Qpower 2 (- e))) as [H1 H2]. fold n in H1, H2. rewrite Qabs_Qminus in H1, H2.
  destruct (Z.eq_dec m n) as [->|D]; [split; [apply Qle_refl|intros K; exfalso; apply K; reflexivity]|].
  destruct (int_dist m n (q * Qpower 2 (- e)) D H1) as [I1 I2]. rewrite !scale. split.
  - apply Qmult_le_compat_r; [exact I1|lra].
  - intros _ E. apply H2, I2. apply Qmult_inj_r in E; [exact E|lra].
Qed.
Lemma rep_case q x : ~ q == 0 -> representable prec emin x ->
  (exists m, x == inject_Z m * Qpower 2 (ex q)) \/ Qabs (rd q - q) < Qabs (x - q).
Proof.
  intros N (m & f & Hm & Hf & Ex). destruct (Z.le_gt_cases (ex q) f) as [L|L].
  - left. exists (m * 2 ^ (f - ex q))%Z. rewrite inject_Z_mult, <- pow_Z by lia. rewrite <- Qmult_assoc, <- pow_add.
    replace (f - ex q + ex q)%Z with f by lia. exact Ex.
  - right. assert (Ee : ex q = (flog2 (Qabs q) - (prec - 1))%Z) by (unfold fexp in *; lia).
    destruct (flog2_spec (Qabs q) (nz_abs q N)) as [B1 _]. set (b := Qpower 2 (flog2 (Qabs q))) in *.
    assert (Xb : Qabs x < b).
    { rewrite Ex, Qabs_Qmult. rewrite (Qabs_pos (Qpower 2 f)) by (apply Qlt_le_weak, pow_pos).
      apply Qlt_le_trans with (Qpower 2 prec * Qpower 2 f).
      - apply Qmult_lt_compat_r; [apply pow_pos|]. rewrite pow_Z by lia. change (Qabs (inject_Z m)) with (inject_Z (Z.abs m)). rewrite <- Zlt_Qlt. exact Hm.
      - rewrite <- pow_add. apply pow_mono. lia. }
    assert (K : Qabs (rd q - q) <= Qabs q - b).
    { assert (Pb : b == inject_Z (2 ^ (prec - 1)) * Qpower 2 (ex q)).
      { unfold b. rewrite <- pow_Z by lia. rewrite <- pow_add. replace (prec - 1 + ex q)%Z with (flog2 (Qabs q)) by lia. reflexivity. }
      destruct (Qlt_le_dec q 0) as [S|S].
      - destruct (near_grid q (- 2 ^ (prec - 1)) N) as [K _]. eapply Qle_trans; [exact K|].
        assert (X : inject_Z (- 2 ^ (prec - 1)) * Qpower 2 (ex q) == - b) by (rewrite inject_Z_opp, Pb; ring). rewrite X.
        rewrite (Qabs_neg q) in * by lra. apply Qabs_Qle_condition. lra.
      - destruct (near_grid q (2 ^ (prec - 1)) N) as [K _]. eapply Qle_trans; [exact K|]. rewrite <- Pb.
        rewrite (Qabs_pos q) in * by lra. apply Qabs_Qle_condition. lra. }
    eapply Qle_lt_trans; [exact K|]. pose proof (Qabs_triangle (q - x) x) as T. assert (X : q - x + x == q) by ring. rewrite X in T.
    rewrite (Qabs_Qminus x q). lra.
Qed.
Theorem fround_nearest q : nearest_even prec emin q (rd q).
Proof.
  assert (R : representable prec emin (rd q)).
  { destruct (fround_rep prec emin ltac:(lia) q) as (n & e & H1 & H2 & H3). exists n, e. auto. }
  split; [exact R|]. destruct (Qeq_dec q 0) as [Z|N].
  - assert (E : rd q == 0) by (apply fround_0; exact Z). split.
    + intros x _. rewrite E, Z. change (Qabs (0 - 0)) with 0. apply Qabs_nonneg.
    + intros x _ D T. exfalso. apply D. rewrite E, Z in T. change (Qabs (0 - 0)) with 0 in T. rewrite E.
      revert T. apply Qabs_case; intros; lra.
  - split.
    + intros x Rx. destruct (rep_case q x N Rx) as [(m & Ex)|L]; [|apply Qlt_le_weak, L]. rewrite Ex. apply near_grid, N.
    + intros x Rx D T. destruct (rep_case q x N Rx) as [(m & Ex)|L]; [|exfalso; lra].
      rewrite Ex in D, T. destruct (near_grid q m N) as [_ Ev]. specialize (Ev D T).
      pose proof (sig_bound prec emin ltac:(lia) q N) as Sb. pose proof (fround_nz prec emin q N) as Er.
      set (n := rne (q * Qpower 2 (- ex q))) in *.
      assert (He : (emin <= ex q)%Z) by (unfold fexp; lia).
      assert (S : (2 ^ prec = 2 * 2 ^ (prec - 1))%Z) by (rewrite <- Z.pow_succ_r by lia; f_equal; lia).
      assert (S2 : (2 ^ (prec - 1) = 2 * 2 ^ (prec - 2))%Z) by (rewrite <- Z.pow_succ_r by lia; f_equal; lia).
      pose proof (Z.pow_pos_nonneg 2 (prec - 2) ltac:(lia) ltac:(lia)).
      destruct (Z.eq_dec (Z.abs n) (2 ^ prec)) as [E|E].
      * exists (Z.sgn n * 2 ^ (prec - 1))%Z, (ex q + 1)%Z. split; [|split].
        -- split; [lia|]. split; [lia|]. right. lia.
        -- rewrite S2. rewrite Z.even_mul, Z.even_mul. cbn [Z.even]. apply orb_true_r.
        -- rewrite Er, pow_S. replace n with (Z.sgn n * 2 ^ (prec - 1) * 2)%Z at 1 by lia. rewrite inject_Z_mult. change (inject_Z 2) with 2. ring.
      * exists n, (ex q). split; [|split; [exact Ev|exact Er]]. split; [exact He|]. split; [lia|].
        destruct (Z.eq_dec (ex q) emin) as [Em|Em]; [left; exact Em|right].
        assert (Ee : ex q = (flog2 (Qabs q) - (prec - 1))%Z) by (unfold fexp in *; lia).
        destruct (flog2_spec (Qabs q) (nz_abs q N)) as [B1 _].
        assert (K : inject_Z (2 ^ (prec - 1)) <= Qabs q * Qpower 2 (- ex q)).
        { rewrite <- pow_Z by lia. assert (X : Qpower 2 (prec - 1) == Qpower 2 (flog2 (Qabs q)) * Qpower 2 (- ex q)).
          { rewrite <- pow_add. replace (flog2 (Qabs q) + - ex q)%Z with (prec - 1)%Z by lia. reflexivity. }
          rewrite X. apply Qmult_le_compat_r; [exact B1|apply Qlt_le_weak, pow_pos]. }
        destruct (Qlt_le_dec q 0) as [Sg|Sg].
        -- rewrite Qabs_neg in K by lra.
           assert (K2 : q * Qpower 2 (- ex q) <= inject_Z (- 2 ^ (prec - 1))) by (rewrite inject_Z_opp; lra).
           apply rne_le in K2. fold n in K2. lia.
        -- rewrite Qabs_pos in K by lra. apply rne_ge in K. fold n in K. lia.
Qed.
(** The specification leaves no choice. *)
Lemma unique_half q y y' n e n' e' : nearest_even prec emin q y -> nearest_even prec emin q y' ->
  (emin <= e)%Z -> (Z.abs n < 2 ^ prec)%Z -> Z.even n = true -> y == inject_Z n * Qpower 2 e ->
  Z.even n' = true -> y' == inject_Z n' * Qpower 2 e' -> (e <= e')%Z -> ~ y == y' -> False.
Proof.
  intros (R & M & _) (R' & M' & _) He Hn En Ey En' Ey' L D.
  assert (T : Qabs (y - q) == Qabs (y' - q)) by (apply Qle_antisym; [apply M, R'|apply M', R]).
  set (k := (n' * 2 ^ (e' - e))%Z).
  assert (Ek : y' == inject_Z k * Qpower 2 e).
  { unfold k. rewrite inject_Z_mult, <- pow_Z by lia. rewrite <- Qmult_assoc, <- pow_add. replace (e' - e + e)%Z with e' by lia. exact Ey'. }
  assert (Ev : Z.even k = true) by (unfold k; rewrite Z.even_mul, En'; reflexivity).
  assert (Nk : k <> n) by (intros ->; apply D; rewrite Ey, Ek; reflexivity).
  assert (Mq : 2 * q == y + y').
  { assert (X : ~ y - q == y' - q) by lra. revert T X. do 2 (apply Qabs_case; intros ?); intros; lra. }
  set (m := (n + Z.sgn (k - n))%Z).
  assert (Rm : representable prec emin (inject_Z m * Qpower 2 e)).
  { destruct (canonical_of prec emin ltac:(lia) m e He ltac:(unfold m; lia)) as (m' & f & F1 & F2 & F3). exists m', f. split; [exact F2|]. split; [lia|exact F3]. }
  apply M in Rm. pose proof (pow_pos e) as P. set (b := Qpower 2 e) in *.
  assert (K : (n < m < k \/ k < m < n)%Z).
  { unfold m. apply Zeven_bool_iff in En. apply Zeven_bool_iff in Ev. apply Zeven_ex in En, Ev. destruct En as [a ->]. destruct Ev as [c Ec]. rewrite Ec in *. lia. }
  assert (K2 : inject_Z n * b < inject_Z m * b /\ inject_Z m * b < inject_Z k * b \/ inject_Z k * b < inject_Z m * b /\ inject_Z m * b < inject_Z n * b).
  { destruct K as [[K1 K2]|[K1 K2]]; [left|right]; split; apply Qmult_lt_compat_r; try exact P; rewrite <- Zlt_Qlt; assumption. }
  rewrite Ey in *. rewrite Ek in *. revert Rm. do 2 (apply Qabs_case; intros ?); intros; lra.
Qed.
Theorem nearest_unique q y y' : nearest_even prec emin q y -> nearest_even prec emin q y' -> y == y'.
Proof.
  intros N N'. destruct (Qeq_dec y y') as [E|D]; [exact E|]. exfalso.
  pose proof N as (R & M & Ev). pose proof N' as (R' & M' & Ev').
  assert (T : Qabs (y - q) == Qabs (y' - q)) by (apply Qle_antisym; [apply M, R'|apply M', R]).
  destruct (Ev y' R') as (n & e & (C1 & C2 & _) & C3 & C4); [intro K; apply D; symmetry; exact K|symmetry; exact T|].
  destruct (Ev' y R) as (n' & e' & (C1' & C2' & _) & C3' & C4'); [exact D|exact T|].
  destruct (Z.le_gt_cases e e') as [L|L].
  - exact (unique_half q y y' n e n' e' N N' C1 C2 C3 C4 C3' C4' L D).
  - apply (unique_half q y' y n' e' n e N' N C1' C2' C3' C4' C3 C4); [lia|]. intro K; apply D; symmetry; exact K.
Qed.
End Rounding.
