(** Prime.v - Fermat's little theorem and Pocklington's criterion (mathematics, no code modelled),
    used to show that the secp256k1 field prime and group order are prime. *)
From Coq Require Import Znumtheory Zpow_facts.
From Verif Require Import Base.
From Coq Require Import ZifyBool ZifyNat.

(** ** Fermat *)
(** In proofs; for bip32/utils.go:16-19. *)
Definition zprod (l : list Z) : Z := fold_right Z.mul 1 l.
(** In proofs; for bip32/utils.go:16-19. *)
Definition zrange (n : nat) : list Z := map Z.of_nat (seq 1 n).

Lemma zprod_perm l l' : Permutation l l' -> zprod l = zprod l'.
Proof. induction 1; simpl; lia. Qed.

Lemma zprod_map_mul a l r : 0 < r ->
  zprod (map (fun k => (a * k) mod r) l) mod r = (a ^ Z.of_nat (length l) * zprod l) mod r.
Proof.
  intros Hr. induction l as [|k l IH]; [reflexivity|].
  cbn [map zprod fold_right length].
  change (fold_right Z.mul 1 (map (fun k0 => (a * k0) mod r) l)) with (zprod (map (fun k0 => (a * k0) mod r) l)).
  change (fold_right Z.mul 1 l) with (zprod l).
  rewrite Z.mul_mod, IH by lia. rewrite Z.mod_mod by lia. rewrite <- Z.mul_mod by lia.
  f_equal. rewrite Nat2Z.inj_succ, Z.pow_succ_r by lia. ring.
Qed.

Lemma zrange_in n k : In k (zrange n) <-> 1 <= k <= Z.of_nat n.
Proof.
  unfold zrange. rewrite in_map_iff. split.
  - intros (x & <- & Hx). apply in_seq in Hx. lia.
  - intros H. exists (Z.to_nat k). split; [lia|]. apply in_seq. lia.
Qed.
Lemma zrange_length n : length (zrange n) = n.
Proof. unfold zrange. now rewrite map_length, seq_length. Qed.
Lemma zrange_NoDup n : NoDup (zrange n).
Proof.
  unfold zrange. apply FinFun.Injective_map_NoDup; [|apply seq_NoDup].
  intros x y H. lia.
Qed.

Lemma prime_mod_mul r a b : prime r -> (a * b) mod r = 0 -> a mod r = 0 \/ b mod r = 0.
Proof.
  intros Hp H. pose proof (prime_ge_2 _ Hp).
  apply Z.mod_divide in H; [|lia].
  destruct (prime_mult _ Hp _ _ H) as [D|D]; [left|right]; apply Z.mod_divide; auto; lia.
Qed.

Lemma zprod_mod_nonzero r l : prime r -> (forall k, In k l -> k mod r <> 0) -> zprod l mod r <> 0.
Proof.
  intros Hp. pose proof (prime_ge_2 _ Hp). induction l as [|k l IH]; intros Hl; simpl.
  - rewrite Z.mod_1_l; lia.
  - intros E. apply prime_mod_mul in E as [E|E]; [|..|assumption].
    + apply (Hl k); [left; reflexivity|exact E].
    + apply IH; [|exact E]. intros; apply Hl; right; assumption.
Qed.

Lemma mod_mul_cancel r a x y : prime r -> a mod r <> 0 -> (a * x) mod r = (a * y) mod r -> x mod r = y mod r.
Proof.
  intros Hp Ha E. pose proof (prime_ge_2 _ Hp).
  assert (D : (a * (x - y)) mod r = 0).
  { replace (a * (x - y)) with (a * x - a * y) by ring.
    rewrite Zminus_mod, E, Z.sub_diag. apply Z.mod_0_l. lia. }
  apply prime_mod_mul in D as [D|D]; [contradiction| |assumption].
  apply Z.mod_divide in D; [|lia]. destruct D as [z D].
  replace x with (y + z * r) by lia. rewrite Z.mod_add; lia.
Qed.

Theorem fermat r a : prime r -> a mod r <> 0 -> a ^ (r - 1) mod r = 1.
Proof.
  intros Hp Ha. pose proof (prime_ge_2 _ Hp) as H2.
  set (n := Z.to_nat (r - 1)).
  assert (Hn : Z.of_nat n = r - 1) by lia.
  set (L := zrange n). set (M := map (fun k => (a * k) mod r) L).
  assert (HL : forall k, In k L -> k mod r <> 0).
  { intros k Hk. apply zrange_in in Hk. rewrite Z.mod_small; lia. }
  assert (HP : Permutation M L).
  { apply NoDup_Permutation_bis.
    - unfold M. assert (Hinj : forall x y, In x L -> In y L -> (a*x) mod r = (a*y) mod r -> x = y).
      { intros x y Hx Hy E. apply mod_mul_cancel in E; [|assumption..].
        apply zrange_in in Hx, Hy. rewrite !Z.mod_small in E by lia. exact E. }
      pose proof (zrange_NoDup n) as ND. fold L in ND. revert Hinj.
      clear HL. induction ND as [|x l Hx ND IH]; intros Hinj; simpl; constructor.
      + intros Hin. apply in_map_iff in Hin as (y & E & Hy).
        apply Hx. rewrite (Hinj x y); [assumption|left; reflexivity|right; assumption|congruence].
      + apply IH. intros; apply Hinj; simpl; auto.
    - unfold M. rewrite map_length. apply Nat.le_refl.
    - intros y Hy. unfold M in Hy. apply in_map_iff in Hy as (k & <- & Hk).
      apply zrange_in. assert ((a * k) mod r <> 0).
      { intros E. apply prime_mod_mul in E as [E|E]; [contradiction| |assumption]. now apply (HL k). }
      pose proof (Z.mod_pos_bound (a * k) r). lia. }
  pose proof (zprod_map_mul a L r ltac:(lia)) as E.
  fold M in E. rewrite (zprod_perm _ _ HP) in E.
  unfold L in E at 2. rewrite zrange_length, Hn in E.
  assert (E' : (zprod L * 1) mod r = (zprod L * a ^ (r - 1)) mod r).
  { rewrite Z.mul_1_r, E. f_equal. ring. }
  apply mod_mul_cancel in E'; [|assumption|apply zprod_mod_nonzero; assumption].
  rewrite <- E'. apply Z.mod_1_l. lia.
Qed.

(** ** Pocklington *)
Lemma pow_gcd_one r a : 1 < r -> forall k m, 0 <= m -> 0 <= k ->
  a ^ m mod r = 1 -> a ^ k mod r = 1 -> a ^ Z.gcd m k mod r = 1.
Proof.
  intros Hr k m Hm Hk. revert m Hm.
  apply (Z_lt_induction (fun k => 0 <= k -> forall m, 0 <= m -> a ^ m mod r = 1 -> a ^ k mod r = 1 ->
    a ^ Z.gcd m k mod r = 1)); [|exact Hk|exact Hk]. clear k Hk.
  intros k IH Hkk m Hm Em Ek.
  destruct (Z.eq_dec k 0) as [->|Hk0].
  - rewrite Z.gcd_0_r, Z.abs_eq by lia. exact Em.
  - assert (Hk : 0 < k) by lia.
    rewrite Z.gcd_comm, <- Z.gcd_mod, Z.gcd_comm by lia.
    apply IH; [pose proof (Z.mod_pos_bound m k); lia|pose proof (Z.mod_pos_bound m k); lia|lia|exact Ek|].
    pose proof (Z.mod_pos_bound m k Hk).
    assert (Em' : a ^ m = (a ^ k) ^ (m / k) * a ^ (m mod k)).
    { rewrite <- Z.pow_mul_r, <- Z.pow_add_r by (try apply Z.mul_nonneg_nonneg; try apply Z.div_pos; lia).
      f_equal. apply Z.div_mod. lia. }
    rewrite Em', Z.mul_mod, Zpower_mod, Ek, Z.pow_1_l, Z.mod_1_l, Z.mul_1_l, Z.mod_mod in Em
      by (try apply Z.div_pos; lia). exact Em.
Qed.

Lemma prime_divisor n : 1 < n -> exists r, prime r /\ (r | n).
Proof.
  intros Hn. assert (H0 : 0 <= n) by lia. revert Hn. revert n H0.
  apply (Z_lt_induction (fun n => 1 < n -> exists r, prime r /\ (r | n))).
  intros n IH Hn. destruct (prime_dec n) as [Hp|Hp].
  - exists n. split; [exact Hp|apply Z.divide_refl].
  - destruct (not_prime_divide n Hn Hp) as (m & Hm & D).
    destruct (IH m) as (r & Hr & Dr); [lia|lia|]. exists r. split; [exact Hr|].
    eapply Z.divide_trans; eassumption.
Qed.

Lemma small_prime_divisor n : 1 < n -> ~ prime n -> exists r, prime r /\ (r | n) /\ r * r <= n.
Proof.
  intros Hn Hp. destruct (not_prime_divide n Hn Hp) as (m & Hm & [c D]).
  assert (1 < c) by nia.
  destruct (Z_le_gt_dec (m * m) n).
  - destruct (prime_divisor m) as (r & Hr & Dr); [lia|]. pose proof (prime_ge_2 _ Hr).
    exists r. split; [exact Hr|]. split.
    + eapply Z.divide_trans; [exact Dr|]. exists c. exact D.
    + apply Z.divide_pos_le in Dr; [|lia]. transitivity (m * m); [apply Z.mul_le_mono_nonneg; lia|lia].
  - destruct (prime_divisor c) as (r & Hr & Dr); [lia|]. pose proof (prime_ge_2 _ Hr).
    exists r. split; [exact Hr|]. split.
    + eapply Z.divide_trans; [exact Dr|]. exists m. lia.
    + apply Z.divide_pos_le in Dr; [|lia].
      assert (c <= m) by (apply Z.lt_le_incl, (Zmult_gt_0_lt_reg_r c m m); lia).
      transitivity (c * c); [apply Z.mul_le_mono_nonneg; lia|]. rewrite D. apply Z.mul_le_mono_nonneg_l; lia.
Qed.

Lemma prod_primes_divide l m :
  NoDup l -> (forall q, In q l -> prime q) -> (forall q, In q l -> (q | m)) -> (zprod l | m).
Proof.
  intros ND. revert m. induction ND as [|q l Hq ND IH]; intros m Hp Hd; simpl.
  - apply Z.divide_1_l.
  - destruct (Hd q) as [c Ec]; [left; reflexivity|].
    assert (D : (zprod l | c)).
    { apply IH; [intros; apply Hp; right; assumption|].
      intros q' Hq'. assert (D : (q' | m)) by (apply Hd; right; assumption). rewrite Ec in D.
      destruct (prime_mult q' (Hp q' (or_intror Hq')) _ _ D) as [D'|D']; [exact D'|].
      exfalso. assert (q' = q).
      { apply prime_div_prime; [apply Hp; right; assumption|apply Hp; left; reflexivity|exact D']. }
      subst. contradiction. }
    destruct D as [d ->]. exists d. rewrite Ec. unfold zprod. ring.
Qed.

Theorem pocklington N a qs :
  1 < N -> NoDup qs ->
  (forall q, In q qs -> prime q) ->
  (forall q, In q qs -> (q | N - 1)) ->
  N < zprod qs * zprod qs ->
  a ^ (N - 1) mod N = 1 ->
  (forall q, In q qs -> Z.gcd (a ^ ((N - 1) / q) - 1) N = 1) ->
  prime N.
Proof.
  intros HN ND Hq HqN HF HaN Hgcd.
  destruct (prime_dec N) as [Hp|Hp]; [exact Hp|exfalso].
  destruct (small_prime_divisor N HN Hp) as (r & Hr & [c Dr] & Hrr).
  pose proof (prime_ge_2 _ Hr) as H2.
  assert (Hmodr : forall x, x mod N = 1 -> x mod r = 1).
  { intros x Hx. rewrite (Z.div_mod x N), Hx by lia. rewrite Dr.
    replace (c * r * (x / (c * r)) + 1) with (1 + (c * (x / (c * r))) * r) by ring.
    rewrite Z.mod_add by lia. apply Z.mod_1_l. lia. }
  assert (Har : a ^ (N - 1) mod r = 1) by (apply Hmodr; exact HaN).
  assert (Ha0 : a mod r <> 0).
  { intros E. assert (E2 : a ^ (N - 1) mod r = 0).
    { rewrite Zpower_mod, E, Z.pow_0_l by lia. apply Z.mod_0_l. lia. }
    congruence. }
  pose proof (fermat r a Hr Ha0) as Hf.
  pose proof (pow_gcd_one r a ltac:(lia) (r - 1) (N - 1) ltac:(lia) ltac:(lia) Har Hf) as Hg.
  set (g := Z.gcd (N - 1) (r - 1)) in *.
  assert (Hall : forall q, In q qs -> (q | r - 1)).
  { intros q Hin. destruct (Zdivide_dec q g) as [D|D].
    - eapply Z.divide_trans; [exact D|]. apply Z.gcd_divide_r.
    - exfalso. pose proof (prime_ge_2 _ (Hq q Hin)).
      assert (RP : rel_prime g q).
      { apply rel_prime_sym, prime_rel_prime; [apply Hq; exact Hin|exact D]. }
      destruct (HqN q Hin) as [m Em].
      assert (Hm : (N - 1) / q = m) by (rewrite Em; apply Z.div_mul; lia).
      assert (Dg : (g | m)).
      { apply Gauss with q; [|exact RP]. rewrite Z.mul_comm, <- Em. apply Z.gcd_divide_l. }
      destruct Dg as [k Ek].
      assert (0 <= g) by apply Z.gcd_nonneg.
      assert (0 < m) by (clear -Em HN H; nia).
      assert (0 <= k) by (clear -Ek H0 H1; nia).
      assert (Hone : a ^ m mod r = 1).
      { rewrite Ek, Z.mul_comm, Z.pow_mul_r, Zpower_mod, Hg, Z.pow_1_l by lia. apply Z.mod_1_l. lia. }
      assert (Dm : (r | a ^ m - 1)).
      { apply Z.mod_divide; [lia|]. rewrite Zminus_mod, Hone, Z.mod_1_l by lia. reflexivity. }
      pose proof (Hgcd q Hin) as G1. rewrite Hm in G1.
      assert (D1 : (r | 1)).
      { rewrite <- G1. apply Z.gcd_greatest; [exact Dm|]. exists c. exact Dr. }
      apply Z.divide_1_r in D1. lia. }
  assert (DF : (zprod qs | r - 1)) by (apply prod_primes_divide; assumption).
  assert (HF0 : 0 <= zprod qs).
  { clear -Hq. induction qs as [|q l IH]; simpl; [lia|].
    pose proof (prime_ge_2 q (Hq q (or_introl eq_refl))).
    assert (0 <= zprod l) by (apply IH; intros; apply Hq; right; assumption). unfold zprod in *. nia. }
  apply Z.divide_pos_le in DF; [|lia]. clear -DF Hrr HF HF0 H2. nia.
Qed.

(** Executable form of the two checks. *)
(** In proofs; for bip32/utils.go:16-19. *)
Definition trial (n : Z) : bool :=
  (1 <? n) && forallb (fun d => negb (n mod d =? 0)) (map (fun k => k + 1) (zrange (Z.to_nat (Z.sqrt n)))).
Lemma trial_prime n : trial n = true -> prime n.
Proof.
  unfold trial. intros H. apply andb_true_iff in H as [H1 H]. rewrite forallb_forall in H.
  destruct (prime_dec n) as [Hp|Hp]; [exact Hp|exfalso].
  destruct (small_prime_divisor n ltac:(lia) Hp) as (r & Hr & D & Hrr).
  pose proof (prime_ge_2 _ Hr).
  assert (r <= Z.sqrt n) by (apply Z.sqrt_le_square; lia).
  specialize (H r). cbv beta in H. rewrite negb_true_iff in H.
  assert (Z.eqb (n mod r) 0 = false).
  { apply H. apply in_map_iff. exists (r - 1). split; [lia|]. apply zrange_in. lia. }
  apply Z.mod_divide in D; lia.
Qed.

(** In proofs; for bip32/utils.go:16-19. *)
Definition pock_check (N a : Z) (qs : list Z) : bool :=
  (1 <? N) && (N <? zprod qs * zprod qs)
  && (Zpow_mod a (N - 1) N =? 1)
  && forallb (fun q => ((N - 1) mod q =? 0) && (Z.gcd (Zpow_mod a ((N - 1) / q) N - 1) N =? 1)) qs.
Lemma pock_prime N a qs : NoDup qs -> (forall q, In q qs -> prime q) ->
  pock_check N a qs = true -> prime N.
Proof.
  intros ND Hq H. unfold pock_check in H. rewrite !andb_true_iff in H.
  destruct H as [[[H1 H2] H3] H4]. rewrite forallb_forall in H4.
  apply (pocklington N a qs); try assumption; try lia.
  - intros q Hin. apply H4 in Hin as Hc. pose proof (prime_ge_2 _ (Hq q Hin)).
    apply Z.mod_divide; lia.
  - rewrite Zpow_mod_correct in H3 by lia. lia.
  - intros q Hin. apply H4 in Hin as Hc. rewrite Zpow_mod_correct in Hc by lia.
    apply andb_true_iff in Hc as [_ Hc]. apply Z.eqb_eq in Hc.
    set (x := a ^ ((N - 1) / q)) in *. transitivity (Z.gcd (x mod N - 1) N); [|exact Hc].
    rewrite (Z.gcd_comm (x mod N - 1)), (Z.gcd_comm (x - 1)).
    rewrite <- (Z.gcd_mod (x - 1) N), <- (Z.gcd_mod (x mod N - 1) N) by lia.
    rewrite Zminus_mod_idemp_l. reflexivity.
Qed.
