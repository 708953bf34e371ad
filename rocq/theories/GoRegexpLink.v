(** GoRegexpLink.v - the patterns of GoRegexp.v on ASCII texts are the regular expressions of Rx.v (for C97). *)
From Verif Require Import Base BaseFacts GoStr GoStrLit Bip32 GoCodec Rx RxFacts Bip32Path Bip32Reg
  GoRegexp SpecRegexp GoRegexpIn GoRegexpRun GoRegexpPike GoRegexpCode GoRegexpComp GoRegexpSimp GoRegexpMain.

(** In proofs; for bip32/path.go:22, 25, bip32/reg_ver_bytes.go:75. *)
Definition sub (s : bytes) (i j : nat) : bytes := firstn (j - i) (skipn i s).
Lemma sub_len s i j : (i <= j <= length s)%nat -> length (sub s i j) = (j - i)%nat.
Proof. intros H. unfold sub. rewrite firstn_length, skipn_length. lia. Qed.
Lemma firstn_add {A} n m : forall l : list A, firstn (n + m) l = firstn n l ++ firstn m (skipn n l).
Proof. induction n as [|n IH]; intros l; [reflexivity|]. destruct l as [|a l]; cbn; [rewrite firstn_nil; reflexivity|]. rewrite IH. reflexivity. Qed.
Lemma skipn_add {A} n m : forall l : list A, skipn (n + m) l = skipn m (skipn n l).
Proof. induction n as [|n IH]; intros l; [reflexivity|]. destruct l as [|a l]; cbn; [rewrite skipn_nil; reflexivity|]. apply IH. Qed.
Lemma sub_app s i k j : (i <= k <= j)%nat -> sub s i j = sub s i k ++ sub s k j.
Proof.
  intros H. unfold sub. replace (j - i)%nat with ((k - i) + (j - k))%nat by lia. rewrite firstn_add. f_equal. rewrite <- skipn_add. do 2 f_equal. lia.
Qed.
Lemma app_inv_length2 {A} (a b c d : list A) : length a = length b -> a ++ c = b ++ d -> a = b /\ c = d.
Proof.
  revert b. induction a as [|x a IH]; intros [|y b] L E; cbn in *; try discriminate; [auto|]. injection E as -> E. destruct (IH b ltac:(congruence) E) as [-> ->]. auto.
Qed.
Lemma sub_split s i j u v : (i <= j <= length s)%nat -> sub s i j = u ++ v ->
  exists k, (i <= k <= j)%nat /\ sub s i k = u /\ sub s k j = v.
Proof.
  intros H E. pose proof (sub_len s i j H) as L. rewrite E, app_length in L. exists (i + length u)%nat. split; [lia|].
  rewrite (sub_app s i (i + length u) j) in E by lia. apply app_inv_length2 in E; [tauto|]. rewrite sub_len by lia. lia.
Qed.
Lemma sub_refl s i : sub s i i = [].
Proof. unfold sub. rewrite Nat.sub_diag. reflexivity. Qed.
Lemma sub_nil s i j : (i <= j <= length s)%nat -> sub s i j = [] -> i = j.
Proof. intros H E. pose proof (sub_len s i j H) as L. rewrite E in L. cbn in L. lia. Qed.
Lemma sub_all s : sub s 0 (length s) = s.
Proof. unfold sub. rewrite Nat.sub_0_r. cbn [skipn]. apply firstn_all. Qed.
Lemma sub_one s i c : nth_error s i = Some c -> sub s i (i + 1) = [c].
Proof.
  intros H. unfold sub. replace (i + 1 - i)%nat with 1%nat by lia.
  assert (L : (i < length s)%nat) by (apply nth_error_Some; congruence). destruct (skipn_cons_lt s i L) as (a & t & Es & Na). rewrite Es. cbn. congruence.
Qed.

Lemma Matches_eps t : Matches Reps t -> t = [].
Proof. intros M. remember Reps as r eqn:E. destruct M; try discriminate. reflexivity. Qed.
(** In proofs; for bip32/path.go:22, 25, bip32/reg_ver_bytes.go:75. *)
Definition Rel (re : regexp) (r : rx) : Prop :=
  forall s i j, (i <= length s)%nat -> Den s re i j <-> (i <= j <= length s)%nat /\ Matches r (sub s i j).
Lemma rel_ext re r r' : (forall t, Matches r t <-> Matches r' t) -> Rel re r -> Rel re r'.
Proof. intros E H s i j L. rewrite (H s i j L), E. tauto. Qed.
Lemma rel_cat a b r q : Rel a r -> Rel b q -> Rel (OpConcat a b) (Rcat r q).
Proof.
  intros Ha Hb s i j L. rewrite den_cat, Matches_cat. split.
  - intros (k & A & B). apply Ha in A; [|exact L]. destruct A as (Lk & A). apply Hb in B; [|lia]. destruct B as (Lj & B). split; [lia|].
    exists (sub s i k), (sub s k j). split; [apply sub_app; lia|tauto].
  - intros (Lj & u & v & E & A & B). destruct (sub_split s i j u v Lj E) as (k & Lk & <- & <-). exists k. split; [apply Ha; [lia|]|apply Hb; [lia|]]; (split; [lia|assumption]).
Qed.
Lemma rel_cap n a r : Rel a r -> Rel (OpCapture n a) r.
Proof. intros H s i j L. rewrite den_cap. apply H, L. Qed.
Lemma rel_star a r : Rel a r -> Rel (OpStar a) (Rstar r).
Proof.
  intros H s i j L. split.
  - rewrite den_star. intros (n & I). induction I as [i|n i j k D I IH]; [split; [lia|]; rewrite sub_refl; constructor|].
    apply H in D; [|exact L]. destruct D as (Lj & D). destruct (IH ltac:(lia)) as (Lk & M). split; [lia|]. rewrite (sub_app s i j k) by lia. constructor; assumption.
  - intros (Lj & M). remember (sub s i j) as t eqn:Et. remember (Rstar r) as rs eqn:Er. revert i j L Lj Et.
    induction M as [| | | | |a0|a0 u v M1 _ M2 IH]; try discriminate; intros i j L Lj Et.
    + symmetry in Et. apply sub_nil in Et; [|exact Lj]. subst j. apply D_star0.
    + injection Er as ->. symmetry in Et. destruct (sub_split s i j u v Lj Et) as (k & Lk & <- & <-). apply (D_starS s _ i k j); [apply H; [exact L|]; split; [lia|exact M1]|].
      apply IH; [reflexivity|lia|lia|reflexivity].
Qed.
Lemma rel_plus a r : Rel a r -> Rel (OpPlus a) (Rplus r).
Proof.
  intros H s i j L. unfold Rplus. pose proof (rel_cat _ _ _ _ H (rel_star _ _ H) s i j L) as X. rewrite <- X, den_cat. split.
  - intros D. inversion D; subst. eauto.
  - intros (k & A & B). eapply D_plus; eassumption.
Qed.
Lemma rel_upto a r n : Rel a r -> Rel (OpRepeat 0 n a) (Rupto n r).
Proof.
  intros H. induction n as [|n IH]; intros s i j L; cbn [Rupto].
  - split.
    + intros D. inversion D; subst. split; [lia|]. rewrite sub_refl. constructor.
    + intros (Lj & M). apply Matches_eps in M. rename M into E. apply sub_nil in E; [|exact Lj]. subst j. apply D_rep0.
  - pose proof (rel_cat _ _ _ _ H IH s i j L) as X. split.
    + intros D. inversion D; subst; [split; [lia|]; rewrite sub_refl; apply MAltL; constructor|].
      assert (Y : Den s (OpConcat a (OpRepeat 0 n a)) i j) by (eapply D_cat; eassumption). apply X in Y. destruct Y as (Lj & Y). split; [exact Lj|]. apply MAltR, Y.
    + intros (Lj & M). unfold Ropt in M. inversion M as [| | |? ? ? M'|? ? ? M'| |]; subst.
      * apply Matches_eps in M'. rename M' into E. apply sub_nil in E; [|exact Lj]. subst j. apply D_rep0.
      * assert (Y : Den s (OpConcat a (OpRepeat 0 n a)) i j) by (apply X; split; [exact Lj|exact M']). apply den_cat in Y. destruct Y as (k & A & B).
        eapply D_repS; [exact A|exact B].
Qed.
Lemma rune_ascii s i c w : rune_at s i c w -> c < 128 -> w = 1%nat /\ exists b, nth_error s i = Some b /\ c = Zb b.
Proof.
  intros [L E] Hc. destruct (skipn_cons_lt s i L) as (a & t & Es & Na). rewrite Es in E. destruct (decode_cases _ _ _ _ E) as [(A & B & C)|(A & B & C)]; [|lia].
  split; [exact C|]. exists a. split; [exact Na|exact B].
Qed.
Lemma ascii_rune s i b : nth_error s i = Some b -> Zb b < 128 -> rune_at s i (Zb b) 1.
Proof.
  intros N Hb. assert (L : (i < length s)%nat) by (apply nth_error_Some; congruence). split; [exact L|].
  destruct (skipn_cons_lt s i L) as (a & t & Es & Na). rewrite Es. replace a with b by congruence.
  destruct (decode_rune (b :: t)) as [c w] eqn:E. destruct (decode_cases _ _ _ _ E) as [(A & B & C)|(A & B & C)]; [congruence|lia].
Qed.
Lemma rune_rel (Q : Z -> Prop) (p : byte -> bool) s i j : (forall c, Q c -> c < 128) -> (forall b, p b = true <-> Q (Zb b)) -> (i <= length s)%nat ->
  (exists c w, rune_at s i c w /\ Q c /\ j = (i + w)%nat) <-> (i <= j <= length s)%nat /\ Matches (Rcls p) (sub s i j).
Proof.
  intros Hq Hp L. rewrite Matches_cls. split.
  - intros (c & w & R & HQ & ->). destruct (rune_ascii s i c w R (Hq c HQ)) as (-> & b & Nb & ->). assert (i < length s)%nat by (apply nth_error_Some; congruence).
    split; [lia|]. exists b. split; [apply sub_one; exact Nb|]. apply Hp. exact HQ.
  - intros (Lj & b & E & Pb). pose proof (sub_len s i j Lj) as Ls. rewrite E in Ls. cbn in Ls. assert (j = (i + 1)%nat) by lia. subst j.
    destruct (nth_error s i) as [b'|] eqn:Nb; [|apply nth_error_None in Nb; lia]. rewrite (sub_one s i b' Nb) in E. injection E as ->.
    apply Hp in Pb. exists (Zb b), 1%nat. split; [apply ascii_rune; [exact Nb|apply Hq, Pb]|]. split; [exact Pb|reflexivity].
Qed.
Lemma rel_class rs p : (forall c, in_class rs c -> c < 128) -> (forall b, p b = true <-> in_class rs (Zb b)) -> Rel (OpCharClass rs) (Rcls p).
Proof.
  intros A B s i j L. rewrite <- (rune_rel _ p s i j A B L). split.
  - intros D. inversion D; subst. eauto 8.
  - intros (c & w & R & Q & ->). eapply D_class; eassumption.
Qed.
Lemma rel_lit0 f : Rel (OpLiteral f []) Reps.
Proof.
  intros s i j L. split; [intros D; inversion D; subst; split; [lia|]; rewrite sub_refl; constructor|].
  intros (Lj & M). apply Matches_eps in M. rename M into E. apply sub_nil in E; [|exact Lj]. subst j. constructor.
Qed.
Lemma rel_litS f x rs p r : (forall c, lit_rune f x c -> c < 128) -> (forall b, p b = true <-> lit_rune f x (Zb b)) -> Rel (OpLiteral f rs) r ->
  Rel (OpLiteral f (x :: rs)) (Rcat (Rcls p) r).
Proof.
  intros A B H s i j L. rewrite Matches_cat. split.
  - intros D. inversion D; subst. match goal with R : rune_at s i ?c ?w, Q : lit_rune _ _ _ |- _ =>
      destruct (proj1 (rune_rel _ p s i (i + w) A B L)) as (Lk & M); [exists c, w; tauto|] end.
    match goal with D' : Den s (OpLiteral f rs) _ _ |- _ => apply H in D'; [|lia]; destruct D' as (Lj & M') end.
    split; [lia|]. eexists _, _. split; [apply sub_app|split; [exact M|exact M']]; lia.
  - intros (Lj & u & v & E & M & M'). destruct (sub_split s i j u v Lj E) as (k & Lk & <- & <-).
    destruct (proj2 (rune_rel _ p s i k A B L)) as (c & w & R & Q & ->); [split; [lia|exact M]|]. eapply D_litS; [exact R|exact Q|]. apply H; [lia|]. split; [lia|exact M'].
Qed.
Lemma Matches_cat_eps a t : Matches (Rcat a Reps) t <-> Matches a t.
Proof.
  rewrite Matches_cat. split; [intros (u & v & -> & A & B); inversion B; subst; rewrite app_nil_r; exact A|].
  intros A. exists t, []. rewrite app_nil_r. split; [reflexivity|]. split; [exact A|constructor].
Qed.
Lemma rel_lit1 f x p : (forall c, lit_rune f x c -> c < 128) -> (forall b, p b = true <-> lit_rune f x (Zb b)) -> Rel (OpLiteral f [x]) (Rcls p).
Proof. intros A B. eapply rel_ext; [|apply (rel_litS f x [] p Reps A B), rel_lit0]. intros t. apply Matches_cat_eps. Qed.
Lemma Matches_assoc a b c t : Matches (Rcat (Rcat a b) c) t <-> Matches (Rcat a (Rcat b c)) t.
Proof.
  rewrite !Matches_cat. split.
  - intros (u & v & -> & A & C). apply Matches_cat in A. destruct A as (x & y & -> & A & B). exists x, (y ++ v). rewrite app_assoc. split; [reflexivity|]. split; [exact A|].
    constructor; assumption.
  - intros (u & v & -> & A & C). apply Matches_cat in C. destruct C as (x & y & -> & B & C). exists (u ++ x), y. rewrite app_assoc. split; [reflexivity|]. split; [|exact C]. constructor; assumption.
Qed.
(** a pattern between begin and end of text *)
Lemma den_anchored a r s : Rel a r -> (exists i j, boundary s i /\ Den s (OpConcat (OpConcat OpBeginText a) OpEndText) i j) <-> Matches r s.
Proof.
  intros H. split.
  - intros (i & j & _ & D). apply den_cat in D. destruct D as (k & D & De). inversion De; subst. apply den_cat in D. destruct D as (k & Db & D). inversion Db; subst.
    apply H in D; [|lia]. rewrite sub_all in D. apply D.
  - intros M. exists O, (length s). split; [constructor|]. apply den_cat. exists (length s). split; [|constructor]. apply den_cat. exists O. split; [constructor|].
    apply H; [lia|]. rewrite sub_all. split; [lia|exact M].
Qed.
Lemma lit_plain x c : lit_rune false x c <-> c = x.
Proof. unfold lit_rune. split; [intros [H|[H _]]; [exact H|discriminate]|auto]. Qed.
Lemma rel_chr (b : byte) : Zb b < 128 -> Rel (OpLiteral false [Zb b]) (Rchr b).
Proof.
  intros Hb. apply rel_lit1.
  - intros c. rewrite lit_plain. lia.
  - intros c. rewrite lit_plain. rewrite byte_eqb_spec. split; [congruence|]. intros E. apply Zb_inj in E. congruence.
Qed.

Lemma den_assoc a b c s i j : Den s (OpConcat (OpConcat a b) c) i j <-> Den s (OpConcat a (OpConcat b c)) i j.
Proof.
  rewrite !den_cat. split.
  - intros (k & A & C). apply den_cat in A. destruct A as (m & A & B). exists m. split; [exact A|]. apply den_cat. eauto.
  - intros (k & A & C). apply den_cat in C. destruct C as (m & B & C). exists m. split; [|exact C]. apply den_cat. eauto.
Qed.
Lemma den_cat_l a a' b s : (forall i j, Den s a i j <-> Den s a' i j) -> forall i j, Den s (OpConcat a b) i j <-> Den s (OpConcat a' b) i j.
Proof. intros H i j. rewrite !den_cat. split; intros (k & A & B); exists k; (split; [apply H; exact A|exact B]). Qed.
Lemma cat_ext a a' b b' t : (forall u, Matches a u <-> Matches a' u) -> (forall u, Matches b u <-> Matches b' u) -> Matches (Rcat a b) t <-> Matches (Rcat a' b') t.
Proof. intros A B. rewrite !Matches_cat. split; intros (u & v & E & M & N); exists u, v; (split; [exact E|]); (split; [apply A; exact M|apply B; exact N]). Qed.

Lemma digit_rel : Rel perl_d (Rcls is_digit).
Proof.
  apply rel_class.
  - intros c. cbn. lia.
  - intros b. destruct b; cbn; (split; [intros Q; first [discriminate|left; split; discriminate]|intros [Q|[]]; first [reflexivity|lia]]).
Qed.
Lemma mM_rel : Rel (OpLiteral true [77]) (Rcls is_mM).
Proof.
  apply rel_lit1.
  - intros c. unfold lit_rune. lia.
  - intros b. unfold lit_rune. split.
    + destruct b; cbn; intros E; try discriminate; [left; reflexivity|right; split; [reflexivity|left; split; [lia|reflexivity]]].
    + intros H. assert (E : Zb b = 77 \/ Zb b = 109) by lia. destruct E as [E|E]; [change 77 with (Zb x4d) in E|change 109 with (Zb x6d) in E]; apply Zb_inj in E; subst b; reflexivity.
Qed.
(** In proofs; for bip32/path.go:22, 25, bip32/reg_ver_bytes.go:75. *)
Definition path_body : regexp :=
  OpConcat (OpConcat (OpLiteral true [77]) (OpStar (OpCapture 1 (OpConcat (OpConcat (OpLiteral false [47]) (OpPlus perl_d)) (OpLiteral false [39])))))
    (OpStar (OpCapture 2 (OpConcat (OpLiteral false [47]) (OpPlus perl_d)))).
Lemma path_body_rel : Rel path_body PathRegex.
Proof.
  unfold PathRegex. eapply rel_ext; [intros t; apply Matches_assoc|]. apply rel_cat; [apply rel_cat|].
  - exact mM_rel.
  - apply rel_star, rel_cap. unfold hard_rx. eapply rel_ext; [intros t; apply Matches_assoc|].
    apply rel_cat; [apply rel_cat; [exact (rel_chr x2f eq_refl)|apply rel_plus, digit_rel]|exact (rel_chr x27 eq_refl)].
  - apply rel_star, rel_cap. apply rel_cat; [exact (rel_chr x2f eq_refl)|apply rel_plus, digit_rel].
Qed.
Lemma path_re_body s i j : Den s path_re i j <-> Den s (OpConcat (OpConcat OpBeginText path_body) OpEndText) i j.
Proof.
  unfold path_re, path_body. apply den_cat_l. intros x y. rewrite <- den_assoc. apply den_cat_l. intros u v. apply den_assoc.
Qed.
(** In proofs; for bip32/path.go:22, 25, bip32/reg_ver_bytes.go:75. *)
Definition version_body : regexp :=
  OpConcat (OpConcat (OpConcat (OpConcat (OpLiteral false [109; 47]) (OpRepeat 0 8 perl_d)) (OpLiteral false [39; 47])) (OpRepeat 0 8 perl_d)) (OpLiteral false [39]).
Lemma rel_chr2 (a b : byte) : Zb a < 128 -> Zb b < 128 -> Rel (OpLiteral false [Zb a; Zb b]) (Rcat (Rchr a) (Rchr b)).
Proof.
  intros Ha Hb. unfold Rchr at 1. apply rel_litS.
  - intros c. rewrite lit_plain. lia.
  - intros c. rewrite lit_plain, byte_eqb_spec. split; [congruence|]. intros E. apply Zb_inj in E. congruence.
  - apply rel_chr. exact Hb.
Qed.
Lemma version_body_rel : Rel version_body hd_rx.
Proof.
  apply (rel_ext _ (Rcat (Rcat (Rcat (Rcat (Rcat (Rchr x6d) (Rchr x2f)) (Rupto 8 (Rcls is_digit))) (Rcat (Rchr x27) (Rchr x2f))) (Rupto 8 (Rcls is_digit))) (Rchr x27))).
  - intros t. unfold hd_rx. cbv zeta. rewrite !Matches_assoc. apply cat_ext; [tauto|]. intros u. rewrite !Matches_assoc. apply cat_ext; [tauto|]. intros v. rewrite !Matches_assoc. apply cat_ext; [tauto|].
    intros w. rewrite !Matches_assoc. tauto.
  - unfold version_body. repeat apply rel_cat; try (exact (rel_chr x27 eq_refl)); try (exact (rel_chr2 x6d x2f eq_refl eq_refl)); try (exact (rel_chr2 x27 x2f eq_refl eq_refl)); apply rel_upto, digit_rel.
Qed.
Lemma version_re_body s i j : Den s version_re i j <-> Den s (OpConcat (OpConcat OpBeginText version_body) OpEndText) i j.
Proof.
  unfold version_re, version_body. apply den_cat_l. intros x1 y1. rewrite <- den_assoc. apply den_cat_l. intros x2 y2. rewrite <- den_assoc. apply den_cat_l.
  intros x3 y3. rewrite <- den_assoc. apply den_cat_l. intros x4 y4. rewrite <- den_assoc. tauto.
Qed.

Lemma path_re_ok : re_ok path_re.
Proof. cbn. repeat split; repeat constructor; try lia; try discriminate; intros _ Q; repeat destruct Q as [Q|Q]; lia. Qed.
Lemma version_re_ok : re_ok version_re.
Proof. cbn. repeat split; repeat constructor; try lia; try discriminate; intros _ Q; repeat destruct Q as [Q|Q]; lia. Qed.
Lemma space_re_ok : re_ok space_re.
Proof. cbn. repeat split; try lia. discriminate. Qed.

Lemma iff_bool (a b : bool) : (a = true <-> b = true) -> a = b.
Proof. destruct a, b; intuition congruence. Qed.
Lemma path_compiles : exists R, MustCompile path_re = Ret R /\ re_onepass R = None.
Proof. eexists. split; [vm_compute; reflexivity|reflexivity]. Qed.
Theorem GoPathMatch_ok s : GoPathMatch s = Ret (rx_match PathRegex s).
Proof.
  unfold GoPathMatch. destruct path_compiles as (R & E & N). rewrite E. cbn [bind].
  destruct (MatchString_ok path_re R s path_re_ok E N) as (b & -> & H). f_equal. apply iff_bool. rewrite H, rx_match_spec.
  rewrite <- (den_anchored path_body PathRegex s path_body_rel). split; intros (i & j & B & D); exists i, j; (split; [exact B|]); apply path_re_body; exact D.
Qed.
