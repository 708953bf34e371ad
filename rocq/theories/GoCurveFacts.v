(** GoCurveFacts.v - the Jacobian formulas of GoCurve.v compute chords and tangents; coordinates and multiples of the base point. *)
From Coq Require Import Lia ZifyBool Field Ring.
From Verif Require Import Base BaseFacts Prime Secp SecpPrime Fp ECGroup SpecEC SecpFacts GoField Base58Facts GoFieldFacts GoFieldBytes GoCurve.

Local Infix "+f" := Fadd (at level 50, left associativity).
Local Infix "-f" := Fsub (at level 50, left associativity).
Local Infix "*f" := Fmul (at level 40, left associativity).
Local Notation f2 := (F1 +f F1).
Local Notation f3 := (F1 +f F1 +f F1).
Local Notation f4 := (f2 *f f2).
Local Notation f8 := (f2 *f (f2 *f f2)).

Lemma toF_4 : toF 4 = f4. Proof. apply Fp_eq. vm_compute. reflexivity. Qed.
Lemma toF_8 : toF 8 = f8. Proof. apply Fp_eq. vm_compute. reflexivity. Qed.

(** Magnitudes add up below the bounds of every function: a proof for each expression of the formulas. *)
Ltac rr :=
  lazymatch goal with
  | |- R _ (Add _ _) _ => eapply R_Add; [| | |rr|rr]; lia
  | |- R _ (MulInt _ _) _ => eapply R_MulInt; [| | |rr]; lia
  | |- R _ (Negate ?k _) _ => apply (R_Neg k); [lia|eapply R_le; [|rr]; lia]
  | |- R _ (Mul _ _) _ => eapply R_Mul; [| |rr|rr]; lia
  | |- R _ (Square _) _ => eapply R_Sq; [|rr]; lia
  | |- R _ (Normalize _) _ => eapply N_R, R_Normalize; [|rr]; lia
  | |- R _ _ _ => eassumption
  end.
Lemma RN m f a b : R m f a -> 0 <= m <= 32 -> a = b -> N (Normalize f) b.
Proof. intros A B <-. exact (R_Normalize m f a B A). Qed.
Ltac fr := rewrite ?toF_2, ?toF_3, ?toF_4, ?toF_8; ring.

(** The coordinates of p are numbers that stand for X, Y and Z: bip32/utils.go:64, 70 *)
Definition J (p : jac) (X Y Z : Fp) : Prop := N (jX p) X /\ N (jY p) Y /\ N (jZ p) Z.
(** The same, not reduced: bip32/utils.go:64, 70 *)
Definition J1 (p : jac) (X Y Z : Fp) : Prop := R 1 (jX p) X /\ R 1 (jY p) Y /\ R 1 (jZ p) Z.
Lemma J_J1 p X Y Z : J p X Y Z -> J1 p X Y Z. Proof. intros (A & B & C). split; [|split]; apply N_R; assumption. Qed.
Lemma J_inf : J jInf F0 F0 F0. Proof. split; [|split]; apply (SetInt_N 0); lia. Qed.

(** bip32/utils.go:64, 70 *)
Definition dX (X Y : Fp) : Fp := f3 *f f3 *f X *f X *f X *f X -f f8 *f X *f Y *f Y.
(** bip32/utils.go:64, 70 *)
Definition dY (X Y : Fp) : Fp := f3 *f X *f X *f (f4 *f X *f Y *f Y -f dX X Y) -f f8 *f Y *f Y *f Y *f Y.
Lemma double_with_J z3 p X Y Z Z3 m : J1 p X Y Z -> R m z3 Z3 -> 0 <= m <= 32 -> J (double_with z3 p) (dX X Y) (dY X Y) Z3.
Proof.
  intros (A & B & C) H Hm. unfold double_with, jNorm. cbv zeta. set (x := jX p) in *. set (y := jY p) in *. clearbody x y.
  split; [|split]; cbn [jX jY jZ].
  - eapply RN; [rr|lia|]. unfold dX. fr.
  - eapply RN; [rr|lia|]. unfold dY, dX. fr.
  - eapply RN; [exact H|lia|reflexivity].
Qed.
(** The chord through (X1, Y1) and (X2, Y2), with Z multiplied by 2 (X2 - X1): bip32/utils.go:64, 70 *)
Definition cX (X1 Y1 X2 Y2 : Fp) : Fp :=
  let h := X2 -f X1 in let r := f2 *f (Y2 -f Y1) in r *f r -f f4 *f h *f h *f h -f f2 *f (X1 *f (f4 *f h *f h)).
(** bip32/utils.go:64, 70 *)
Definition cY (X1 Y1 X2 Y2 : Fp) : Fp :=
  let h := X2 -f X1 in let r := f2 *f (Y2 -f Y1) in r *f (X1 *f (f4 *f h *f h) -f cX X1 Y1 X2 Y2) -f f2 *f Y1 *f (f4 *f h *f h *f h).
(** The same with Z multiplied by X2 - X1: bip32/utils.go:64, 70 *)
Definition eX (X1 Y1 X2 Y2 : Fp) : Fp :=
  let h := X2 -f X1 in let r := Y2 -f Y1 in r *f r -f X1 *f h *f h -f X2 *f h *f h.
(** bip32/utils.go:64, 70 *)
Definition eY (X1 Y1 X2 Y2 : Fp) : Fp :=
  let h := X2 -f X1 in let r := Y2 -f Y1 in r *f (X1 *f h *f h -f eX X1 Y1 X2 Y2) -f Y1 *f h *f h *f h.

Lemma add11_J p1 p2 X1 Y1 Z1 X2 Y2 Z2 : J1 p1 X1 Y1 Z1 -> J1 p2 X2 Y2 Z2 -> Equals (jX p1) (jX p2) = false ->
  J (addZ1AndZ2EqualsOne p1 p2) (cX X1 Y1 X2 Y2) (cY X1 Y1 X2 Y2) (f2 *f (X2 -f X1)).
Proof.
  intros (A1 & B1 & C1) (A2 & B2 & C2) E. unfold addZ1AndZ2EqualsOne, jNorm. cbv zeta. rewrite E. clear E.
  set (x1 := jX p1) in *. set (y1 := jY p1) in *. set (x2 := jX p2) in *. set (y2 := jY p2) in *. clearbody x1 x2 y1 y2.
  split; [|split]; cbn [jX jY jZ]; (eapply RN; [rr|lia|]); unfold cY, cX; fr.
Qed.
Lemma addEq_J p1 p2 X1 Y1 Z1 X2 Y2 Z2 : J1 p1 X1 Y1 Z1 -> J1 p2 X2 Y2 Z2 -> Equals (jX p1) (jX p2) = false ->
  J (addZ1EqualsZ2 p1 p2) (eX X1 Y1 X2 Y2) (eY X1 Y1 X2 Y2) (Z1 *f (X2 -f X1)).
Proof.
  intros (A1 & B1 & C1) (A2 & B2 & C2) E. unfold addZ1EqualsZ2, jNorm. cbv zeta. rewrite E. clear E.
  set (x1 := jX p1) in *. set (y1 := jY p1) in *. set (z1 := jZ p1) in *. set (x2 := jX p2) in *. set (y2 := jY p2) in *. clearbody x1 x2 y1 y2 z1.
  split; [|split]; cbn [jX jY jZ]; (eapply RN; [rr|lia|]); unfold eY, eX; fr.
Qed.
Lemma addZ2_J p1 p2 X1 Y1 Z1 X2 Y2 Z2 : J1 p1 X1 Y1 Z1 -> J1 p2 X2 Y2 Z2 ->
  let u2 := Normalize (Mul (jX p2) (Square (jZ p1))) in
  let U2 := X2 *f Z1 *f Z1 in let S2 := Y2 *f Z1 *f Z1 *f Z1 in
  Equals (jX p1) u2 = false ->
  J (addZ2EqualsOne p1 p2) (cX X1 Y1 U2 S2) (cY X1 Y1 U2 S2) (f2 *f Z1 *f (U2 -f X1)).
Proof.
  intros (A1 & B1 & C1) (A2 & B2 & C2) u2 U2 S2 E. unfold addZ2EqualsOne, jNorm. cbv zeta. fold u2. rewrite E. clear E.
  assert (Hu : R 1 u2 U2) by (apply N_R; eapply RN; [rr|lia|]; unfold U2; ring). clearbody u2.
  set (s2 := Normalize (Mul (Mul (jY p2) (Square (jZ p1))) (jZ p1))).
  assert (Hs : R 1 s2 S2) by (apply N_R; eapply RN; [rr|lia|]; unfold S2; ring). clearbody s2 U2 S2.
  set (x1 := jX p1) in *. set (y1 := jY p1) in *. set (z1 := jZ p1) in *. clearbody x1 y1 z1.
  split; [|split]; cbn [jX jY jZ]; (eapply RN; [rr|lia|]); unfold cY, cX; fr.
Qed.
Lemma addGen_J p1 p2 X1 Y1 Z1 X2 Y2 Z2 : J1 p1 X1 Y1 Z1 -> J1 p2 X2 Y2 Z2 ->
  let u1 := Normalize (Mul (jX p1) (Square (jZ p2))) in
  let u2 := Normalize (Mul (jX p2) (Square (jZ p1))) in
  let U1 := X1 *f Z2 *f Z2 in let S1 := Y1 *f Z2 *f Z2 *f Z2 in
  let U2 := X2 *f Z1 *f Z1 in let S2 := Y2 *f Z1 *f Z1 *f Z1 in
  Equals u1 u2 = false ->
  J (addGeneric p1 p2) (cX U1 S1 U2 S2) (cY U1 S1 U2 S2) (f2 *f Z1 *f Z2 *f (U2 -f U1)).
Proof.
  intros (A1 & B1 & C1) (A2 & B2 & C2) u1 u2 U1 S1 U2 S2 E. unfold addGeneric, jNorm. cbv zeta. fold u1 u2. rewrite E. clear E.
  assert (Hu1 : R 1 u1 U1) by (apply N_R; eapply RN; [rr|lia|]; unfold U1; ring).
  assert (Hu : R 1 u2 U2) by (apply N_R; eapply RN; [rr|lia|]; unfold U2; ring). clearbody u1 u2.
  set (s1 := Normalize (Mul (Mul (jY p1) (Square (jZ p2))) (jZ p2))).
  assert (Hs1 : R 1 s1 S1) by (apply N_R; eapply RN; [rr|lia|]; unfold S1; ring).
  set (s2 := Normalize (Mul (Mul (jY p2) (Square (jZ p1))) (jZ p1))).
  assert (Hs : R 1 s2 S2) by (apply N_R; eapply RN; [rr|lia|]; unfold S2; ring). clearbody s1 s2 U1 S1 U2 S2.
  set (z1 := jZ p1) in *. set (z2 := jZ p2) in *. clearbody z1 z2.
  split; [|split]; cbn [jX jY jZ]; (eapply RN; [rr|lia|]); unfold cY, cX; fr.
Qed.

(** p stands for the point P in Jacobian coordinates: bip32/utils.go:64, 70 *)
Definition Jrep (p : jac) (P : point) : Prop := exists X Y Z, J p X Y Z /\
  match P with Inf _ => Z = F0 \/ (X = F0 /\ Y = F0) | Aff _ x y => Z <> F0 /\ X = x *f Z *f Z /\ Y = y *f Z *f Z *f Z end.
Lemma Fmul_nz a b : a <> F0 -> b <> F0 -> a *f b <> F0.
Proof. intros A B E. apply A. replace a with (a *f b *f Finv b) by (field; exact B). rewrite E. ring. Qed.
Lemma Fmul_z a b : a *f b = F0 -> a <> F0 -> b = F0.
Proof. intros E A. destruct (Feqb b F0) eqn:B; [apply Feqb_spec, B|]. exfalso. apply (Fmul_nz a b A); [|exact E]. intros ->. rewrite (proj2 (Feqb_spec F0 F0) eq_refl) in B. discriminate. Qed.
Lemma Fsub_nz a b : a <> b -> b -f a <> F0.
Proof. intros Ne E. apply Ne. replace a with (b -f (b -f a)) by ring. rewrite E. ring. Qed.
Lemma Fcancel c a b : c <> F0 -> a *f c = b *f c -> a = b.
Proof. intros C E. replace a with (a *f c *f Finv c) by (field; exact C). rewrite E. field. exact C. Qed.
Lemma Feqb_cancel c a b : c <> F0 -> Feqb (a *f c) (b *f c) = Feqb a b.
Proof. intros C. apply eq_iff_eq_true. rewrite !Feqb_spec. split; [apply Fcancel, C|intros ->; reflexivity]. Qed.
Lemma Feqb_neq a b : Feqb a b = false <-> a <> b.
Proof. rewrite <- not_true_iff_false, Feqb_spec. reflexivity. Qed.
Lemma Feqb_refl a : Feqb a a = true. Proof. apply Feqb_spec. reflexivity. Qed.

Lemma cadd_same x y : cadd (PAff x y) (PAff x y) = if Feqb y F0 then PInf else line_add Fp Fmul Fsub (Fdiv (f3 *f (x *f x)) (f2 *f y)) x y x.
Proof. unfold cadd, aadd. rewrite !Feqb_refl. reflexivity. Qed.
Lemma Double_rep p x y : Jrep p (PAff x y) -> Jrep (DoubleNonConst p) (cadd (PAff x y) (PAff x y)).
Proof.
  intros (X & Y & Z_ & HJ & NZ & EX & EY). rewrite cadd_same. unfold DoubleNonConst. destruct HJ as (A & B & C).
  rewrite (N_IsZero _ _ B), (N_IsZero _ _ C), (N_IsOne _ _ C). rewrite (proj2 (Feqb_neq Z_ F0) NZ), orb_false_r.
  assert (EY0 : Feqb Y F0 = Feqb y F0).
  { rewrite EY. replace F0 with (F0 *f (Z_ *f Z_ *f Z_)) at 1 by ring. replace (y *f Z_ *f Z_ *f Z_) with (y *f (Z_ *f Z_ *f Z_)) by ring.
    apply Feqb_cancel. apply Fmul_nz; [apply Fmul_nz|]; exact NZ. }
  rewrite EY0. destruct (Feqb y F0) eqn:Ey; [exists F0, F0, F0; split; [exact J_inf|left; reflexivity]|]. apply Feqb_neq in Ey.
  assert (HJ1 : J1 p X Y Z_) by (apply J_J1; split; [|split]; assumption).
  assert (Q : Jrep (double_with (MulInt 2 (Mul (jY p) (jZ p))) p) (line_add Fp Fmul Fsub (Fdiv (f3 *f (x *f x)) (f2 *f y)) x y x)).
  { assert (H : R 2 (MulInt 2 (Mul (jY p) (jZ p))) (toF 2 *f (Y *f Z_))) by (destruct HJ1 as (? & ? & ?); apply (R_MulInt 2 1); [lia|lia|lia|rr]).
    exists (dX X Y), (dY X Y), (toF 2 *f (Y *f Z_)). split; [exact (double_with_J _ _ _ _ _ _ 2 HJ1 H ltac:(lia))|]. rewrite toF_2. unfold line_add, dY, dX.
    subst X Y. split; [repeat apply Fmul_nz; auto using secp_two|]. split; field; split; auto using secp_two. }
  destruct (Feqb Z_ F1) eqn:E1; [|exact Q]. apply Feqb_spec in E1. subst Z_.
  assert (H : R 2 (MulInt 2 (jY p)) (toF 2 *f Y)) by (destruct HJ1 as (? & ? & ?); apply (R_MulInt 2 1); [lia|lia|lia|rr]).
  exists (dX X Y), (dY X Y), (toF 2 *f Y). split; [exact (double_with_J _ _ _ _ _ _ 2 HJ1 H ltac:(lia))|]. rewrite toF_2. unfold line_add, dY, dX.
  subst X Y. split; [repeat apply Fmul_nz; auto using secp_two|]. split; field; split; auto using secp_two.
Qed.

(** no coordinates for infinity: bip32/utils.go:64, 70 *)
Definition proper (P : point) : Prop := P <> PAff F0 F0.
Lemma Jinf_test p P : proper P -> Jrep p P -> (IsZero (jX p) && IsZero (jY p)) || IsZero (jZ p) = match P with Inf _ => true | _ => false end.
Proof.
  intros HP (X & Y & Z_ & (A & B & C) & H). rewrite (N_IsZero _ _ A), (N_IsZero _ _ B), (N_IsZero _ _ C). destruct P as [|x y].
  - destruct H as [-> |[-> ->]]; rewrite !Feqb_refl; [apply orb_true_r|reflexivity].
  - destruct H as (NZ & -> & ->). rewrite (proj2 (Feqb_neq Z_ F0) NZ), orb_false_r. apply not_true_iff_false. rewrite andb_true_iff, !Feqb_spec. intros [E1 E2]. apply HP.
    assert (NZ2 : Z_ *f Z_ <> F0) by (apply Fmul_nz; assumption). assert (NZ3 : Z_ *f Z_ *f Z_ <> F0) by (apply Fmul_nz; assumption). f_equal.
    + apply (Fcancel (Z_ *f Z_)); [exact NZ2|]. transitivity (x *f Z_ *f Z_); [ring|]. rewrite E1. ring.
    + apply (Fcancel (Z_ *f Z_ *f Z_)); [exact NZ3|]. transitivity (y *f Z_ *f Z_ *f Z_); [ring|]. rewrite E2. ring.
Qed.
Lemma Jrep_inf : Jrep jInf PInf.
Proof. exists F0, F0, F0. split; [exact J_inf|left; reflexivity]. Qed.

Lemma branch p1 (f g : list Z) (s t : list Z) (U1 U2 S1 S2 c d : Fp) x1 y1 x2 y2 q :
  Jrep p1 (PAff x1 y1) -> N f U1 -> N g U2 -> N s S1 -> N t S2 -> U1 = x1 *f c -> U2 = x2 *f c -> S1 = y1 *f d -> S2 = y2 *f d -> c <> F0 -> d <> F0 ->
  (Equals f g = false -> x1 <> x2 -> Jrep q (line_add Fp Fmul Fsub (Fdiv (y2 -f y1) (x2 -f x1)) x1 y1 x2)) ->
  Jrep (if Equals f g then if Equals s t then DoubleNonConst p1 else jInf else q) (cadd (PAff x1 y1) (PAff x2 y2)).
Proof.
  intros H1 Nf Ng Ns Nt EU1 EU2 ES1 ES2 C D Q. revert Q. rewrite (N_Equals _ _ _ _ Nf Ng), (N_Equals _ _ _ _ Ns Nt), EU1, EU2, ES1, ES2, !Feqb_cancel by assumption.
  intros Q. unfold cadd, aadd. destruct (Feqb x1 x2) eqn:EX; [|apply Q; [reflexivity|apply Feqb_neq, EX]]. destruct (Feqb y1 y2) eqn:EY; [|exact Jrep_inf].
  apply Feqb_spec in EX, EY. subst x2 y2. pose proof (Double_rep _ _ _ H1) as DR. rewrite cadd_same in DR. exact DR.
Qed.
Lemma Add_rep p1 p2 P Q : proper P -> proper Q -> Jrep p1 P -> Jrep p2 Q -> Jrep (AddNonConst p1 p2) (cadd P Q).
Proof.
  intros HP HQ H1 H2. unfold AddNonConst. rewrite (Jinf_test p1 P HP H1), (Jinf_test p2 Q HQ H2).
  destruct P as [|x1 y1]; [exact H2|]. destruct Q as [|x2 y2]; [rewrite cadd_inf_r; exact H1|].
  pose proof H1 as (X1 & Y1 & Z1 & (A1 & B1 & C1) & NZ1 & EX1 & EY1). pose proof H2 as (X2 & Y2 & Z2 & (A2 & B2 & C2) & NZ2 & EX2 & EY2).
  assert (J1' : J1 p1 X1 Y1 Z1) by (apply J_J1; split; [|split]; assumption). assert (J2' : J1 p2 X2 Y2 Z2) by (apply J_J1; split; [|split]; assumption).
  cbv zeta. rewrite (N_IsOne _ _ C1), (N_IsOne _ _ C2), (N_Equals _ _ _ _ C1 C2).
  destruct (Feqb Z1 F1 && Feqb Z2 F1) eqn:E11; [|destruct (Feqb Z1 Z2) eqn:E12; [|destruct (Feqb Z2 F1) eqn:E2]].
  - apply andb_true_iff in E11 as [E E']. apply Feqb_spec in E, E'. subst Z1 Z2.
    eapply (branch p1 _ _ _ _ X1 X2 Y1 Y2 F1 F1); try eassumption; try (rewrite ?EX1, ?EX2, ?EY1, ?EY2; ring); try exact F1_neq_F0.
    intros EE Ne. pose proof (add11_J p1 p2 _ _ _ _ _ _ J1' J2' EE) as HJ. unfold addZ1AndZ2EqualsOne in HJ. cbv zeta in HJ. rewrite EE in HJ.
    eexists _, _, _. split; [exact HJ|]. unfold line_add, cY, cX. cbv zeta. subst X1 X2 Y1 Y2. apply Fsub_nz in Ne.
    split; [replace (x2 *f F1 *f F1 -f x1 *f F1 *f F1) with (x2 -f x1) by ring; apply Fmul_nz; auto using secp_two|]. split; field; exact Ne.
  - apply Feqb_spec in E12. subst Z2.
    eapply (branch p1 _ _ _ _ X1 X2 Y1 Y2 (Z1 *f Z1) (Z1 *f Z1 *f Z1)); try eassumption; try (rewrite ?EX1, ?EX2, ?EY1, ?EY2; ring); try (repeat apply Fmul_nz; assumption).
    intros EE Ne. pose proof (addEq_J p1 p2 _ _ _ _ _ _ J1' J2' EE) as HJ. unfold addZ1EqualsZ2 in HJ. cbv zeta in HJ. rewrite EE in HJ.
    eexists _, _, _. split; [exact HJ|]. unfold line_add, eY, eX. cbv zeta. subst X1 X2 Y1 Y2. apply Fsub_nz in Ne.
    split; [replace (x2 *f Z1 *f Z1 -f x1 *f Z1 *f Z1) with ((x2 -f x1) *f Z1 *f Z1) by ring; repeat apply Fmul_nz; assumption|]. split; field; exact Ne.
  - apply Feqb_spec in E2. subst Z2.
    assert (Nu : N (Normalize (Mul (jX p2) (Square (jZ p1)))) (X2 *f Z1 *f Z1)) by (destruct J1' as (? & ? & ?), J2' as (? & ? & ?); eapply RN; [rr|lia|ring]).
    assert (Ns : N (Normalize (Mul (Mul (jY p2) (Square (jZ p1))) (jZ p1))) (Y2 *f Z1 *f Z1 *f Z1)) by (destruct J1' as (? & ? & ?), J2' as (? & ? & ?); eapply RN; [rr|lia|ring]).
    eapply (branch p1 _ _ _ _ X1 (X2 *f Z1 *f Z1) Y1 (Y2 *f Z1 *f Z1 *f Z1) (Z1 *f Z1) (Z1 *f Z1 *f Z1)); try eassumption; try (rewrite ?EX1, ?EX2, ?EY1, ?EY2; ring); try (repeat apply Fmul_nz; assumption).
    intros EE Ne. pose proof (addZ2_J p1 p2 _ _ _ _ _ _ J1' J2' EE) as HJ. unfold addZ2EqualsOne in HJ. cbv zeta in HJ. rewrite EE in HJ.
    eexists _, _, _. split; [exact HJ|]. unfold line_add, cY, cX. cbv zeta. subst X1 X2 Y1 Y2. apply Fsub_nz in Ne.
    split; [|split; field; exact Ne].
    replace (x2 *f F1 *f F1 *f Z1 *f Z1 -f x1 *f Z1 *f Z1) with ((x2 -f x1) *f Z1 *f Z1) by ring. repeat apply Fmul_nz; auto using secp_two.
  - assert (Nu1 : N (Normalize (Mul (jX p1) (Square (jZ p2)))) (X1 *f Z2 *f Z2)) by (destruct J1' as (? & ? & ?), J2' as (? & ? & ?); eapply RN; [rr|lia|ring]).
    assert (Ns1 : N (Normalize (Mul (Mul (jY p1) (Square (jZ p2))) (jZ p2))) (Y1 *f Z2 *f Z2 *f Z2)) by (destruct J1' as (? & ? & ?), J2' as (? & ? & ?); eapply RN; [rr|lia|ring]).
    assert (Nu : N (Normalize (Mul (jX p2) (Square (jZ p1)))) (X2 *f Z1 *f Z1)) by (destruct J1' as (? & ? & ?), J2' as (? & ? & ?); eapply RN; [rr|lia|ring]).
    assert (Ns : N (Normalize (Mul (Mul (jY p2) (Square (jZ p1))) (jZ p1))) (Y2 *f Z1 *f Z1 *f Z1)) by (destruct J1' as (? & ? & ?), J2' as (? & ? & ?); eapply RN; [rr|lia|ring]).
    eapply (branch p1 _ _ _ _ (X1 *f Z2 *f Z2) (X2 *f Z1 *f Z1) (Y1 *f Z2 *f Z2 *f Z2) (Y2 *f Z1 *f Z1 *f Z1) (Z1 *f Z1 *f (Z2 *f Z2)) (Z1 *f Z1 *f Z1 *f (Z2 *f Z2 *f Z2)));
      try eassumption; try (rewrite ?EX1, ?EX2, ?EY1, ?EY2; ring); try (repeat apply Fmul_nz; assumption).
    intros EE Ne. pose proof (addGen_J p1 p2 _ _ _ _ _ _ J1' J2' EE) as HJ. unfold addGeneric in HJ. cbv zeta in HJ. rewrite EE in HJ.
    eexists _, _, _. split; [exact HJ|]. unfold line_add, cY, cX. cbv zeta. subst X1 X2 Y1 Y2. apply Fsub_nz in Ne.
    split; [|split; field; exact Ne].
    replace (x2 *f Z2 *f Z2 *f Z1 *f Z1 -f x1 *f Z1 *f Z1 *f Z2 *f Z2) with ((x2 -f x1) *f Z1 *f Z1 *f Z2 *f Z2) by ring. repeat apply Fmul_nz; auto using secp_two.
Qed.

(** ** Affine coordinates *)
Lemma Finv_0 : Finv F0 = F0.
Proof. unfold Finv, F0. change (fv (toF 0)) with 0. rewrite Z.pow_0_l by reflexivity. reflexivity. Qed.
Lemma affine_J p X Y Z_ : J p X Y Z_ -> jacobianToBigAffine p = (fv (X *f (Finv Z_ *f Finv Z_)), fv (Y *f (Finv Z_ *f Finv Z_ *f Finv Z_))).
Proof.
  intros HJ. apply J_J1 in HJ as (A & B & C). unfold jacobianToBigAffine, ToAffine. cbv zeta. cbn [jX jY].
  pose proof (R_Inverse _ _ C) as I. set (z := Inverse (jZ p)) in *. clearbody z.
  f_equal; apply N_bytes; eapply RN; [rr|lia|ring|rr|lia|ring].
Qed.
Lemma affine_rep p P : Jrep p P -> jacobianToBigAffine p = enc P.
Proof.
  intros (X & Y & Z_ & HJ & H). rewrite (affine_J _ _ _ _ HJ). destruct P as [|x y]; cbn [enc].
  - change (0, 0) with (fv F0, fv F0). destruct H as [-> |[-> ->]]; rewrite ?Finv_0; f_equal; f_equal; ring.
  - destruct H as (NZ & -> & ->). f_equal; f_equal; field; exact NZ.
Qed.

(** ** curve.Add *)
Lemma field32_range x : 0 <= field32 x < 2 ^ 256.
Proof.
  unfold field32. pose proof (be_Z_range (firstn 32 (Z_bytes x))) as B. pose proof (firstn_le_length 32 (Z_bytes x)) as L. split; [lia|].
  apply Z.lt_le_trans with (p256 (length (firstn 32 (Z_bytes x)))); [lia|]. unfold p256. change (2 ^ 256) with (256 ^ 32). apply Z.pow_le_mono_r; lia.
Qed.
Lemma SetByteSlice_field32 x : U (SetByteSlice (Z_bytes x)) (field32 x).
Proof.
  unfold field32. rewrite <- (bytes32_val (firstn 32 (Z_bytes x))) by apply firstn_le_length.
  assert (E : bytes32 (firstn 32 (Z_bytes x)) = bytes32 (Z_bytes x)) by (unfold bytes32; rewrite firstn_firstn; reflexivity).
  rewrite E. apply SetBytes_spec; [apply bytes32_length|apply bytes32_byt].
Qed.
Lemma field32_zero x : 0 <= x -> (field32 x =? 0) = (x =? 0).
Proof.
  intros Hx. destruct (Z.eqb_spec x 0) as [->|Nz]; [reflexivity|]. apply Z.eqb_neq. unfold field32.
  pose proof (Z_bytes_head x Hx) as H. destruct (Z_bytes x) as [|c l] eqn:E.
  - exfalso. apply Nz. rewrite <- (be_Z_bytes x Hx), E. reflexivity.
  - change (firstn 32 (c :: l)) with (c :: firstn 31 l). rewrite be_Z_cons. pose proof (be_Z_range (firstn 31 l)). assert (0 < p256 (length (firstn 31 l))) by (unfold p256; apply Z.pow_pos_nonneg; lia).
    assert (0 < Zb c). { pose proof (Zb_range c). destruct (Z.eq_dec (Zb c) 0) as [Z0|]; [|lia]. exfalso. apply H. apply Zb_inj. exact Z0. }
    pose proof (Z.mul_pos_pos (Zb c) (p256 (length (firstn 31 l))) ltac:(assumption) ltac:(assumption)). lia.
Qed.
Lemma U_IsZero f z : U f z -> IsZero f = (z =? 0).
Proof.
  intros A. apply eq_iff_eq_true. rewrite (IsZero_iff f (proj1 A)), Z.eqb_eq. split.
  - intros ->. destruct A as (_ & _ & <-). reflexivity.
  - intros ->. apply (U_unique _ _ 0 A). split; [reflexivity|]. split; [|reflexivity]. repeat constructor; cbn; lia.
Qed.
Lemma U_Equals f g y z : U f y -> U g z -> Equals f g = (y =? z).
Proof.
  intros A B. apply eq_iff_eq_true. rewrite (Equals_iff f g) by (rewrite (proj1 A), (proj1 B); reflexivity). rewrite Z.eqb_eq. split.
  - intros ->. destruct A as (_ & _ & <-), B as (_ & _ & <-). reflexivity.
  - intros ->. apply (U_unique _ _ z); assumption.
Qed.
Lemma fv_line a b x3 y3 : (fv x3, fv y3) = (a, b) <-> toF a = x3 /\ toF b = y3 /\ 0 <= a < secp_p /\ 0 <= b < secp_p.
Proof.
  split.
  - intros E. injection E as <- <-. rewrite !toF_fv. repeat split; apply fv_range.
  - intros (<- & <- & A & B). rewrite !fv_toF_small by assumption. reflexivity.
Qed.
Theorem KoblitzAdd_CurveAdd x1 y1 x2 y2 : 0 <= x1 -> 0 <= y1 -> 0 <= x2 -> 0 <= y2 -> KoblitzAdd x1 y1 x2 y2 = CurveAdd (x1, y1) (x2, y2).
Proof.
  intros Hx1 Hy1 Hx2 Hy2. unfold KoblitzAdd, CurveAdd.
  destruct ((x1 =? 0) && (y1 =? 0)) eqn:C1; [reflexivity|]. destruct ((x2 =? 0) && (y2 =? 0)) eqn:C2; [reflexivity|].
  rewrite <- (field32_zero x1 Hx1), <- (field32_zero y1 Hy1) in C1. rewrite <- (field32_zero x2 Hx2), <- (field32_zero y2 Hy2) in C2. cbv zeta.
  pose proof (SetByteSlice_field32 x1) as A1. pose proof (SetByteSlice_field32 y1) as B1. pose proof (SetByteSlice_field32 x2) as A2. pose proof (SetByteSlice_field32 y2) as B2.
  pose proof (field32_range x1) as RX1. pose proof (field32_range y1) as RY1. pose proof (field32_range x2) as RX2. pose proof (field32_range y2) as RY2.
  unfold bigAffineToJacobian. set (u1 := SetByteSlice (Z_bytes x1)) in *. set (v1 := SetByteSlice (Z_bytes y1)) in *. set (u2 := SetByteSlice (Z_bytes x2)) in *. set (v2 := SetByteSlice (Z_bytes y2)) in *.
  set (a1 := field32 x1) in *. set (b1 := field32 y1) in *. set (a2 := field32 x2) in *. set (b2 := field32 y2) in *. clearbody u1 v1 u2 v2 a1 b1 a2 b2. clear x1 x2 y1 y2 Hx1 Hx2 Hy1 Hy2.
  set (p1 := mkJ u1 v1 (SetInt 1)). set (p2 := mkJ u2 v2 (SetInt 1)).
  assert (HJ1 : J1 p1 (toF a1) (toF b1) F1) by (split; [|split]; [apply U_R; [lia|exact A1]|apply U_R; [lia|exact B1]|apply N_R, (SetInt_N 1); lia]).
  assert (HJ2 : J1 p2 (toF a2) (toF b2) F1) by (split; [|split]; [apply U_R; [lia|exact A2]|apply U_R; [lia|exact B2]|apply N_R, (SetInt_N 1); lia]).
  assert (EA : AddNonConst p1 p2 = addZ1AndZ2EqualsOne p1 p2).
  { unfold AddNonConst. cbn [p1 p2 jX jY jZ]. rewrite (U_IsZero _ _ A1), (U_IsZero _ _ B1), (U_IsZero _ _ A2), (U_IsZero _ _ B2), C1, C2. reflexivity. }
  rewrite EA. clear EA C1 C2. assert (EX : Equals (jX p1) (jX p2) = (a1 =? a2)) by (apply U_Equals; assumption). assert (EY : Equals (jY p1) (jY p2) = (b1 =? b2)) by (apply U_Equals; assumption).
  destruct (a1 =? a2) eqn:Ea.
  - apply Z.eqb_eq in Ea. subst a2. unfold addZ1AndZ2EqualsOne. cbv zeta. rewrite EX, EY. destruct (b1 =? b2) eqn:Eb; [|reflexivity]. apply Z.eqb_eq in Eb. subst b2. cbn [andb].
    unfold DoubleNonConst. change (jY p1) with v1. change (jZ p1) with (SetInt 1). rewrite (U_IsZero _ _ B1). change (IsZero (SetInt 1)) with false. change (IsOne (SetInt 1)) with true. cbn [orb].
    destruct (Z.eqb_spec b1 0) as [->|Nb]; [reflexivity|].
    assert (H : R 2 (MulInt 2 v1) (toF 2 *f toF b1)) by (destruct HJ1 as (? & ? & ?); apply (R_MulInt 2 1); [lia|lia|lia|assumption]).
    pose proof (double_with_J _ _ _ _ _ _ 2 HJ1 H ltac:(lia)) as HJ. cbn [orb]. rewrite (affine_J _ _ _ _ HJ). rewrite toF_2.
    assert (Ef : (fred b1 =? 0) = Feqb (toF b1) F0) by (rewrite fred_mod; reflexivity). rewrite Ef. destruct (Feqb (toF b1) F0) eqn:E0; cbn [negb].
    + apply Feqb_spec in E0. rewrite E0. replace (f2 *f F0) with F0 by ring. rewrite Finv_0. change (0, 0) with (fv F0, fv F0). f_equal; f_equal; ring.
    + apply Feqb_neq in E0. apply fv_line. rewrite !toF_fsub, !toF_fmul, !toF_fsub, !toF_fmul, !toF_finv, !toF_mul, !toF_fmul, !toF_fred, toF_2, toF_3. unfold dY, dX.
      split; [field; split; auto using secp_two|]. split; [field; split; auto using secp_two|]. split; apply fsub_range.
  - pose proof (add11_J p1 p2 _ _ _ _ _ _ HJ1 HJ2 EX) as HJ. rewrite (affine_J _ _ _ _ HJ).
    assert (Ef : (fred a1 =? fred a2) = Feqb (toF a1) (toF a2)) by (rewrite !fred_mod; reflexivity). rewrite Ef. destruct (Feqb (toF a1) (toF a2)) eqn:E0.
    + apply Feqb_spec in E0. rewrite E0. replace (f2 *f (toF a2 -f toF a2)) with F0 by ring. rewrite Finv_0. change (0, 0) with (fv F0, fv F0). f_equal; f_equal; ring.
    + apply Feqb_neq, Fsub_nz in E0. apply fv_line. rewrite !toF_fsub, !toF_fmul, !toF_fsub, !toF_fmul, !toF_finv, !toF_fsub, !toF_fred. unfold cY, cX. cbv zeta.
      split; [field; split; auto using secp_two|]. split; [field; split; auto using secp_two|]. split; apply fsub_range.
Qed.

(** ** curve.ScalarBaseMult *)
(** The coordinates of a point as the table of the library holds them: the words of x and y, Z is 1. bip32/utils.go:64 *)
Definition table_point (P : point) : jac :=
  let (x, y) := enc P in mkJ (SetByteSlice (Z_be 32 x)) (SetByteSlice (Z_be 32 y)) (SetInt 1).
(** The table that the library holds: row i, column b is the point b 256^(31-i) G. bip32/utils.go:64 *)
Definition rows_ok (tab : list (list jac)) : Prop :=
  forall i row, nth_error tab i = Some row -> length row = 256%nat /\
    forall b p, nth_error row b = Some p -> p = table_point (kG (Z.of_nat b * 256 ^ (Z.of_nat (length tab) - 1 - Z.of_nat i))).
(** bip32/utils.go:64 *)
Definition bytePoints_ok (tab : list (list jac)) : Prop := length tab = 32%nat /\ rows_ok tab.

Lemma table_rep P : Jrep (table_point P) P.
Proof.
  assert (S : forall a, N (SetByteSlice (Z_be 32 (fv a))) a).
  { intros a. pose proof (SetByteSlice_spec (Z_be 32 (fv a)) ltac:(rewrite Z_be_length; lia)) as H. rewrite be_Z_be, Z.mod_small in H; [exact H|].
    pose proof (fv_range a). unfold p256. change (256 ^ Z.of_nat 32) with (2 ^ 256). unfold secp_p in *. lia. }
  destruct P as [|x y]; unfold table_point; cbn [enc].
  - exists F0, F0, F1. split; [|right; split; reflexivity]. split; [|split]; [apply (S F0)|apply (S F0)|apply (SetInt_N 1); lia].
  - exists x, y, F1. split; [split; [|split]; [apply S|apply S|apply (SetInt_N 1); lia]|]. split; [exact F1_neq_F0|]. split; ring.
Qed.
Lemma on_proper P : oncurve P -> proper P.
Proof. intros H E. subst P. apply enc_inf_iff in H. cbn in H. destruct H as [H _]. discriminate (H eq_refl). Qed.
Lemma rows_tail row tab : rows_ok (row :: tab) -> rows_ok tab.
Proof. intros H i r E. destruct (H (S i) r E) as [L F]. split; [exact L|]. intros b p Ep. rewrite (F b p Ep). cbn [length]. do 4 f_equal. lia. Qed.
Lemma base_loop_rep kb : forall tab r a, length tab = length kb -> rows_ok tab -> 0 <= a -> Jrep r (kG a) ->
  exists q, base_loop tab kb r = Ret q /\ Jrep q (kG (a + be_Z kb)).
Proof.
  induction kb as [|c kb IH]; intros tab r a L T Ha H.
  - exists r. rewrite be_Z_nil, Z.add_0_r. split; [destruct tab; reflexivity|exact H].
  - destruct tab as [|row tab]; [discriminate L|]. injection L as L. cbn [base_loop]. destruct (T 0%nat row eq_refl) as [Lr Fr]. pose proof (Zb_range c) as Rc.
    destruct (nth_error row (Z.to_nat (Zb c))) as [p|] eqn:Ep; [|apply nth_error_None in Ep; lia]. specialize (Fr _ _ Ep).
    rewrite Z2Nat.id in Fr by lia. cbn [length] in Fr. replace (Z.of_nat (S (length tab)) - 1 - Z.of_nat 0) with (Z.of_nat (length kb)) in Fr by lia.
    set (e := Zb c * 256 ^ Z.of_nat (length kb)) in *. assert (He : 0 <= e) by (apply Z.mul_nonneg_nonneg; [lia|apply Z.pow_nonneg; lia]).
    destruct (IH tab (AddNonConst r p) (a + e) L (rows_tail row tab T) ltac:(lia)) as (q & Eq & Hq).
    { rewrite kG_add by lia. apply Add_rep; [apply on_proper, kG_on|apply on_proper, kG_on|exact H|]. rewrite Fr. apply table_rep. }
    exists q. split; [exact Eq|]. rewrite be_Z_cons. unfold p256. replace (a + (Zb c * 256 ^ Z.of_nat (length kb) + be_Z kb)) with (a + e + be_Z kb) by (unfold e; lia). exact Hq.
Qed.
Theorem KoblitzScalarBaseMult_spec tab k : bytePoints_ok tab -> KoblitzScalarBaseMult tab k = Ret (enc (kG (be_Z k))).
Proof.
  intros [L T]. unfold KoblitzScalarBaseMult. set (k' := moduloReduce k).
  assert (H : (length k' <= 32)%nat /\ be_Z k' mod secp_n = be_Z k mod secp_n).
  { unfold k', moduloReduce. destruct (Nat.ltb_spec 32 (length k)) as [G|G]; [|split; [exact G|reflexivity]].
    assert (B : 0 <= be_Z k mod secp_n < secp_n) by (apply Z.mod_pos_bound; reflexivity). rewrite be_Z_bytes by lia. split; [|apply Z.mod_mod; discriminate].
    rewrite Z_bytes_length. unfold nbytes. set (z := be_Z k mod secp_n) in *. clearbody z. destruct (Z.leb_spec z 0); [lia|]. assert (Z.log2 z < 256) by (apply Z.log2_lt_pow2; unfold secp_n in *; lia).
    pose proof (Z.log2_nonneg z). assert (Z.log2 z / 8 < 32) by (apply Z.div_lt_upper_bound; lia). pose proof (Z.div_pos (Z.log2 z) 8 ltac:(lia) ltac:(lia)). lia. }
  destruct H as [Lk Ek]. clearbody k'. rewrite Scalar_spec by exact Lk. rewrite Ek.
  destruct (base_loop_rep (Z_be 32 (be_Z k mod secp_n)) tab jInf 0 ltac:(rewrite Z_be_length; exact L) T ltac:(lia) Jrep_inf) as (q & -> & Hq).
  rewrite (affine_rep _ _ Hq). do 2 f_equal. rewrite Z.add_0_l, be_Z_be.
  assert (B : 0 <= be_Z k mod secp_n < secp_n) by (apply Z.mod_pos_bound; reflexivity).
  rewrite Z.mod_small by (unfold p256; change (256 ^ Z.of_nat 32) with (2 ^ 256); unfold secp_n in *; lia). apply kG_mod_n. apply be_Z_range.
Qed.

(** ** Public keys that are not reduced *)
Lemma big_rep x y : Jrep (bigAffineToJacobian (fv x) (fv y)) (PAff x y).
Proof.
  assert (S : forall a, N (SetByteSlice (Z_bytes (fv a))) a) by (intros a; pose proof (SetByteSlice_field32 (fv a)) as H; rewrite field32_fv in H; exact H).
  exists x, y, F1. split; [split; [|split]; [apply S|apply S|apply (SetInt_N 1); lia]|]. split; [exact F1_neq_F0|]. split; ring.
Qed.
Lemma nth_error_seq_some i a n : (i < n)%nat -> nth_error (seq a n) i = Some (a + i)%nat.
Proof. revert a i. induction n as [|n IH]; intros a i H; [lia|]. destruct i as [|i]; cbn [seq nth_error]; [f_equal; lia|]. rewrite IH by lia. f_equal. lia. Qed.
