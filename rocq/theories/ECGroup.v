(** ECGroup.v - the chord-and-tangent group of y^2 = x^3 + b over any field of characteristic other
    than 2, 3 in which x^3 + b has no root, and the complete projective addition law of Renes,
    Costello and Batina (2015). Mathematics only; instantiated for secp256k1 in SecpFacts.v. *)
From Coq Require Import Field Ring Bool List Setoid.

Section EC.
Variable F : Type.
Variables (O I : F) (add mul sub : F -> F -> F) (opp : F -> F) (div : F -> F -> F) (inv : F -> F).
Hypothesis Fth : field_theory O I add mul sub opp div inv (@eq F).
Variable feq : F -> F -> bool.
Hypothesis feq_spec : forall x y, feq x y = true <-> x = y.
Add Field FF : Fth.

Local Notation "x + y" := (add x y).
Local Notation "x * y" := (mul x y).
Local Notation "x - y" := (sub x y).
Local Notation "- x" := (opp x).
Local Notation "x / y" := (div x y).
Local Notation "0" := O.
Local Notation "1" := I.
Local Notation two := (I + I).
Local Notation three := (I + I + I).

Variable b : F.
Hypothesis two_neq : two <> 0.
Hypothesis no_root : forall x, x * x * x + b <> 0.

(** ** Points and the textbook (affine) law *)
(** For the curve library called at bip32/utils.go:63-71, 107-140. *)
Inductive pt := Inf | Aff (x y : F).

(** For the curve library called at bip32/utils.go:63-71, 107-140. *)
Definition on (P : pt) : Prop :=
  match P with Inf => True | Aff x y => y * y = x * x * x + b end.

(** For the curve library called at bip32/utils.go:63-71, 107-140. *)
Definition neg (P : pt) : pt := match P with Inf => Inf | Aff x y => Aff x (- y) end.

(** For the curve library called at bip32/utils.go:63-71, 107-140. *)
Definition line_add (l x1 y1 x2 : F) : pt :=
  let x3 := l * l - x1 - x2 in Aff x3 (l * (x1 - x3) - y1).

(** For the curve library called at bip32/utils.go:63-71, 107-140. *)
Definition aadd (P Q : pt) : pt :=
  match P, Q with
  | Inf, _ => Q
  | _, Inf => P
  | Aff x1 y1, Aff x2 y2 =>
    if feq x1 x2 then
      if feq y1 y2 then
        if feq y1 0 then Inf
        else line_add (three * (x1 * x1) / (two * y1)) x1 y1 x2
      else Inf
    else line_add ((y2 - y1) / (x2 - x1)) x1 y1 x2
  end.

(** ** Projective triples and the complete law *)
(** For the curve library called at bip32/utils.go:63-71, 107-140. *)
Definition trip : Type := F * F * F.
Local Notation b3 := (three * b).
(** For the curve library called at bip32/utils.go:63-71, 107-140. *)
Definition padd (A B : trip) : trip :=
  let '(X1, Y1, Z1) := A in
  let '(X2, Y2, Z2) := B in
  ((X1*Y2 + X2*Y1)*(Y1*Y2 - b3*(Z1*Z2)) - b3*(Y1*Z2 + Y2*Z1)*(X1*Z2 + X2*Z1),
   (Y1*Y2 + b3*(Z1*Z2))*(Y1*Y2 - b3*(Z1*Z2)) + three*b3*(X1*X2)*(X1*Z2 + X2*Z1),
   (Y1*Z2 + Y2*Z1)*(Y1*Y2 + b3*(Z1*Z2)) + three*(X1*X2)*(X1*Y2 + X2*Y1)).

(** For the curve library called at bip32/utils.go:63-71, 107-140. *)
Definition rep (A : trip) (P : pt) : Prop :=
  let '(X, Y, Z) := A in
  match P with
  | Inf => X = 0 /\ Z = 0 /\ Y <> 0
  | Aff x y => Z <> 0 /\ X = x * Z /\ Y = y * Z
  end.
(** For the curve library called at bip32/utils.go:63-71, 107-140. *)
Definition lift (P : pt) : trip := match P with Inf => (0, 1, 0) | Aff x y => (x, y, 1) end.

Lemma feq_false x y : feq x y = false <-> x <> y.
Proof.
  destruct (feq x y) eqn:E; split; intros H; try congruence.
  - apply feq_spec in E. contradiction.
  - intros ->. assert (feq y y = true) by (apply feq_spec; reflexivity). congruence.
Qed.
Lemma feq_refl x : feq x x = true. Proof. apply feq_spec. reflexivity. Qed.
Lemma feq_dec (x y : F) : x = y \/ x <> y.
Proof. destruct (feq x y) eqn:E; [left; apply feq_spec|right; apply feq_false]; exact E. Qed.

Lemma one_neq : 1 <> 0. Proof. exact (F_1_neq_0 Fth). Qed.
Lemma integral x y : x * y = 0 -> x = 0 \/ y = 0.
Proof.
  intros H. destruct (feq_dec x 0) as [E|E]; [left; exact E|right].
  transitivity ((x * y) / x); [field; exact E|]. rewrite H. field. exact E.
Qed.
Lemma mul_neq x y : x <> 0 -> y <> 0 -> x * y <> 0.
Proof. intros Hx Hy E. destruct (integral _ _ E); contradiction. Qed.
Lemma mul_cancel c x y : c <> 0 -> c * x = c * y -> x = y.
Proof.
  intros Hc E. transitivity ((c * x) / c); [field; exact Hc|]. rewrite E. field. exact Hc.
Qed.
Lemma sub_zero x y : x - y = 0 -> x = y.
Proof. intros H. transitivity ((x - y) + y); [ring|]. rewrite H. ring. Qed.
Lemma opp_eq_zero y : y = - y -> y = 0.
Proof.
  intros H. assert (E : two * y = 0).
  { transitivity (y + y); [ring|]. rewrite H at 2. ring. }
  destruct (integral _ _ E); [contradiction|assumption].
Qed.

(** No point of order two. *)
Lemma on_y_neq x y : on (Aff x y) -> y <> 0.
Proof. simpl. intros H ->. apply (no_root x). rewrite <- H. ring. Qed.

Lemma same_x x y1 y2 : on (Aff x y1) -> on (Aff x y2) -> y1 = y2 \/ y1 = - y2.
Proof.
  simpl. intros H1 H2. assert (E : (y1 - y2) * (y1 + y2) = 0).
  { transitivity (y1 * y1 - y2 * y2); [ring|]. rewrite H1, H2. ring. }
  destruct (integral _ _ E) as [E'|E'].
  - left. apply sub_zero; exact E'.
  - right. transitivity ((y1 + y2) - y2); [ring|]. rewrite E'. ring.
Qed.

Lemma on_neg P : on P -> on (neg P).
Proof. destruct P; simpl; [auto|]. intros H. transitivity (y * y); [ring|exact H]. Qed.

(** Chord and tangent results are on the curve. *)
Lemma chord_on x1 y1 x2 y2 : on (Aff x1 y1) -> on (Aff x2 y2) -> x1 <> x2 ->
  on (line_add ((y2 - y1) / (x2 - x1)) x1 y1 x2).
Proof.
  intros H1 H2 Hx. cbn [on] in H1, H2. unfold line_add. cbn [on].
  assert (Hd : x2 - x1 <> 0) by (intros E; apply Hx; symmetry; apply sub_zero; exact E).
  assert (Hb : b = y1 * y1 - x1 * x1 * x1) by (rewrite H1; ring).
  assert (H2' : y2 * y2 = x2 * x2 * x2 + (y1 * y1 - x1 * x1 * x1)) by (rewrite <- Hb; exact H2).
  rewrite Hb. clear H1 H2 Hb.
  field_simplify_eq; [|exact Hd].
  ring [H2'].
Qed.

Lemma tangent_on x y : on (Aff x y) ->
  on (line_add (three * (x * x) / (two * y)) x y x).
Proof.
  intros H. pose proof (on_y_neq x y H) as Hy. cbn [on] in H. unfold line_add. cbn [on].
  assert (Hb : b = y * y - x * x * x) by (rewrite H; ring).
  rewrite Hb. field. split; [exact Hy|exact two_neq].
Qed.

Lemma aadd_on P Q : on P -> on Q -> on (aadd P Q).
Proof.
  destruct P as [|x1 y1], Q as [|x2 y2]; intros HP HQ; try exact HP; try exact HQ; try exact I.
  unfold aadd. destruct (feq x1 x2) eqn:Ex.
  - apply feq_spec in Ex as ->. destruct (feq y1 y2) eqn:Ey; [|exact Logic.I].
    apply feq_spec in Ey as ->. destruct (feq y2 0); [exact Logic.I|].
    apply tangent_on; exact HP.
  - apply chord_on; [assumption..|apply feq_false; exact Ex].
Qed.

(** ** The complete law computes the affine law *)
(** For the curve library called at bip32/utils.go:63-71, 107-140. *)
Definition scale (c : F) (A : trip) : trip := let '(X, Y, Z) := A in (c * X, c * Y, c * Z).
Lemma padd_scale c d A B : padd (scale c A) (scale d B) = scale (c * c * (d * d)) (padd A B).
Proof.
  destruct A as [[X1 Y1] Z1], B as [[X2 Y2] Z2]. unfold padd, scale.
  f_equal; [f_equal|]; ring.
Qed.
Lemma rep_scale c A P : c <> 0 -> rep A P -> rep (scale c A) P.
Proof.
  intros Hc. destruct A as [[X Y] Z], P as [|x y]; simpl.
  - intros (-> & -> & HY). repeat split; [ring|ring|apply mul_neq; assumption].
  - intros (HZ & -> & ->). repeat split; [apply mul_neq; assumption|ring|ring].
Qed.
Lemma rep_lift P : rep (lift P) P.
Proof.
  destruct P; simpl; repeat split; try ring; exact one_neq.
Qed.
Lemma rep_scaled A P : rep A P -> exists c, c <> 0 /\ A = scale c (lift P).
Proof.
  destruct A as [[X Y] Z], P as [|x y]; simpl.
  - intros (-> & -> & HY). exists Y. split; [exact HY|]. f_equal; [f_equal|]; ring.
  - intros (HZ & -> & ->). exists Z. split; [exact HZ|]. f_equal; [f_equal|]; ring.
Qed.

(** Z3 of the complete law for affine inputs is, up to sign, (x1-x2)^3 * y(P - Q). *)
Lemma padd_Z3_neq x1 y1 x2 y2 : on (Aff x1 y1) -> on (Aff x2 y2) -> x1 <> x2 ->
  (y1*1 + y2*1)*(y1*y2 + b3*(1*1)) + three*(x1*x2)*(x1*y2 + x2*y1) <> 0.
Proof.
  intros H1 H2 Hx E.
  assert (Hd : x2 - x1 <> 0) by (intros E'; apply Hx; symmetry; apply sub_zero; exact E').
  pose proof (chord_on x1 y1 x2 (- y2) H1 (on_neg _ H2) Hx) as Hon.
  pose proof (on_y_neq _ _ Hon) as Hy. apply Hy. clear Hon Hy.
  cbn [on] in H1, H2.
  apply (mul_cancel ((x2 - x1) * (x2 - x1) * (x2 - x1))); [repeat apply mul_neq; exact Hd|].
  transitivity ((y1*1 + y2*1)*(y1*y2 + b3*(1*1)) + three*(x1*x2)*(x1*y2 + x2*y1)); [|rewrite E; ring].
  assert (Hb : b = y1 * y1 - x1 * x1 * x1) by (rewrite H1; ring).
  assert (H2' : y2 * y2 = x2 * x2 * x2 + (y1 * y1 - x1 * x1 * x1)) by (rewrite <- Hb; exact H2).
  rewrite Hb. clear H1 H2 Hb E Hx.
  field_simplify_eq; [|exact Hd].
  ring [H2'].
Qed.
Lemma padd_lift P Q : on P -> on Q -> rep (padd (lift P) (lift Q)) (aadd P Q).
Proof.
  destruct P as [|x1 y1], Q as [|x2 y2]; intros HP HQ.
  - simpl. repeat split; try ring. intros E. apply one_neq. rewrite <- E. ring.
  - pose proof (on_y_neq _ _ HQ) as Hy. simpl. repeat split; try ring.
    intros E. apply Hy. rewrite <- E. ring.
  - pose proof (on_y_neq _ _ HP) as Hy. simpl. repeat split; try ring.
    intros E. apply Hy. rewrite <- E. ring.
  - unfold aadd. destruct (feq x1 x2) eqn:Ex.
    + apply feq_spec in Ex as ->. pose proof (on_y_neq _ _ HP) as Hy.
      pose proof (tangent_on _ _ HP) as Ht.
      destruct (feq y1 y2) eqn:Ey.
      * apply feq_spec in Ey as ->. apply feq_false in Hy as Hy'. rewrite Hy'.
        cbn [on] in HP.
        assert (Hb : b = y2 * y2 - x2 * x2 * x2) by (rewrite HP; ring).
        unfold line_add. cbn [lift padd rep]. repeat split.
        -- intros E. apply (mul_neq (two * two * two) (y2 * y2 * y2)); [repeat apply mul_neq; assumption..|].
           rewrite <- E, Hb. ring.
        -- rewrite Hb. field. split; [exact Hy|exact two_neq].
        -- rewrite Hb. field. split; [exact Hy|exact two_neq].
      * apply feq_false in Ey.
        destruct (same_x _ _ _ HP HQ) as [E|E]; [contradiction|].
        assert (Ey2 : y2 = - y1) by (rewrite E; ring). subst y2. clear E.
        cbn [on] in HP.
        assert (Hb : b = y1 * y1 - x2 * x2 * x2) by (rewrite HP; ring).
        unfold line_add in Ht. pose proof (on_y_neq _ _ Ht) as Hyt.
        cbn [lift padd rep]. repeat split; [ring|ring|].
        intros E. apply Hyt.
        apply (mul_cancel (two * two * two * (y1 * y1 * y1))); [repeat apply mul_neq; assumption|].
        transitivity (((y1 * - y1 + b3 * (1 * 1)) * (y1 * - y1 - b3 * (1 * 1)) +
                        three * b3 * (x2 * x2) * (x2 * 1 + x2 * 1))); [|rewrite E; ring].
        rewrite Hb. field. split; [exact Hy|exact two_neq].
    + apply feq_false in Ex. pose proof (padd_Z3_neq _ _ _ _ HP HQ Ex) as HZ.
      assert (Hd : x2 - x1 <> 0) by (intros E'; apply Ex; symmetry; apply sub_zero; exact E').
      cbn [on] in HP, HQ.
      assert (Hb : b = y1 * y1 - x1 * x1 * x1) by (rewrite HP; ring).
      assert (H2' : y2 * y2 = x2 * x2 * x2 + (y1 * y1 - x1 * x1 * x1)) by (rewrite <- Hb; exact HQ).
      unfold line_add. cbn [lift padd rep]. repeat split.
      * exact HZ.
      * rewrite Hb. clear HP HQ Hb HZ Ex. field_simplify_eq; [|exact Hd]. ring [H2'].
      * rewrite Hb. clear HP HQ Hb HZ Ex. field_simplify_eq; [|exact Hd]. ring [H2'].
Qed.

Theorem padd_rep A B P Q : on P -> on Q -> rep A P -> rep B Q -> rep (padd A B) (aadd P Q).
Proof.
  intros HP HQ HA HB.
  destruct (rep_scaled _ _ HA) as (c & Hc & ->). destruct (rep_scaled _ _ HB) as (d & Hd & ->).
  rewrite padd_scale. apply rep_scale; [repeat apply mul_neq; assumption|].
  apply padd_lift; assumption.
Qed.

Lemma rep_unique X Y Z X' Y' Z' P P' :
  rep (X, Y, Z) P -> rep (X', Y', Z') P' -> X * Z' = X' * Z -> Y * Z' = Y' * Z -> P = P'.
Proof.
  intros H H' EX EY. destruct P as [|x y], P' as [|x' y']; simpl in *.
  - reflexivity.
  - destruct H as (-> & -> & HY), H' as (HZ' & -> & ->). exfalso.
    apply (mul_neq Y Z'); [assumption..|]. rewrite EY. ring.
  - destruct H as (HZ & -> & ->), H' as (-> & -> & HY'). exfalso.
    apply (mul_neq Y' Z); [assumption..|]. rewrite <- EY. ring.
  - destruct H as (HZ & -> & ->), H' as (HZ' & -> & ->).
    f_equal; apply (mul_cancel (Z * Z')); try (apply mul_neq; assumption).
    + transitivity (x * Z * Z'); [ring|]. rewrite EX. ring.
    + transitivity (y * Z * Z'); [ring|]. rewrite EY. ring.
Qed.

Theorem aadd_comm P Q : aadd P Q = aadd Q P.
Proof.
  destruct P as [|x1 y1], Q as [|x2 y2]; try reflexivity. unfold aadd.
  destruct (feq x1 x2) eqn:E.
  - apply feq_spec in E as ->. rewrite feq_refl.
    destruct (feq y1 y2) eqn:E.
    + apply feq_spec in E as ->. rewrite feq_refl. reflexivity.
    + destruct (feq y2 y1) eqn:E'; [|reflexivity]. apply feq_spec in E' as ->.
      rewrite feq_refl in E. discriminate.
  - apply feq_false in E. assert (E' : feq x2 x1 = false) by (apply feq_false; congruence).
    rewrite E'. assert (Hd : x2 - x1 <> 0) by (intros H; apply E; symmetry; apply sub_zero; exact H).
    assert (Hd' : x1 - x2 <> 0) by (intros H; apply E; apply sub_zero; exact H).
    unfold line_add. f_equal; field; split; assumption.
Qed.

Lemma aadd_inf_l P : aadd Inf P = P. Proof. reflexivity. Qed.
Lemma aadd_inf_r P : aadd P Inf = P. Proof. destruct P; reflexivity. Qed.
Lemma aadd_neg P : aadd P (neg P) = Inf.
Proof.
  destruct P as [|x y]; [reflexivity|]. simpl. rewrite feq_refl.
  destruct (feq y (- y)) eqn:E; [|reflexivity].
  apply feq_spec in E. apply opp_eq_zero in E. subst y. rewrite feq_refl. reflexivity.
Qed.

Theorem aadd_assoc P Q R : on P -> on Q -> on R -> aadd (aadd P Q) R = aadd P (aadd Q R).
Proof.
  intros HP HQ HR.
  destruct P as [|x1 y1]; [reflexivity|].
  destruct Q as [|x2 y2]; [reflexivity|].
  destruct R as [|x3 y3]; [rewrite !aadd_inf_r; reflexivity|].
  pose proof (aadd_on _ _ HP HQ) as HPQ. pose proof (aadd_on _ _ HQ HR) as HQR.
  pose proof (padd_lift _ _ HP HQ) as RPQ. pose proof (padd_lift _ _ HQ HR) as RQR.
  pose proof (padd_rep _ _ _ _ HPQ HR RPQ (rep_lift _)) as R1.
  pose proof (padd_rep _ _ _ _ HP HQR (rep_lift _) RQR) as R2.
  cbn [lift padd] in R1, R2.
  refine (rep_unique _ _ _ _ _ _ _ _ R1 R2 _ _); clear R1 R2 RPQ RQR HPQ HQR; cbn [on] in HP, HQ, HR.
  - ring [HP HQ HR].
  - ring [HP HQ HR].
Qed.

(** ** Multiples *)
(** For the curve library called at bip32/utils.go:63-71, 107-140. *)
Fixpoint nmul (k : nat) (P : pt) : pt :=
  match k with Datatypes.O => Inf | S j => aadd P (nmul j P) end.
Lemma nmul_on k P : on P -> on (nmul k P).
Proof. intros H. induction k; simpl; [exact Logic.I|]. apply aadd_on; assumption. Qed.
Lemma nmul_add j k P : on P -> nmul (j + k) P = aadd (nmul j P) (nmul k P).
Proof.
  intros H. induction j; simpl; [reflexivity|].
  rewrite IHj, aadd_assoc; [reflexivity|assumption|apply nmul_on; assumption..].
Qed.
Lemma nmul_mul j k P : on P -> nmul (j * k) P = nmul j (nmul k P).
Proof.
  intros H. induction j; simpl; [reflexivity|].
  rewrite nmul_add by exact H. rewrite IHj. reflexivity.
Qed.
Lemma nmul_inf k : nmul k Inf = Inf.
Proof. induction k; simpl; [reflexivity|]. exact IHk. Qed.

Lemma aadd_cancel_l P Q R : on P -> on Q -> on R -> aadd P Q = aadd P R -> Q = R.
Proof.
  intros HP HQ HR E.
  assert (HN : on (neg P)) by (apply on_neg; exact HP).
  assert (E' : aadd (neg P) (aadd P Q) = aadd (neg P) (aadd P R)) by (rewrite E; reflexivity).
  rewrite <- !aadd_assoc in E' by assumption.
  rewrite (aadd_comm (neg P) P), aadd_neg in E'. exact E'.
Qed.
Lemma neg_neg P : neg (neg P) = P.
Proof. destruct P; simpl; [reflexivity|]. f_equal. ring. Qed.
Lemma aadd_inf_iff P Q : on P -> on Q -> aadd P Q = Inf <-> Q = neg P.
Proof.
  intros HP HQ. split.
  - intros E. apply (aadd_cancel_l P); [assumption|assumption|apply on_neg; assumption|].
    rewrite E, aadd_neg. reflexivity.
  - intros ->. apply aadd_neg.
Qed.
End EC.
