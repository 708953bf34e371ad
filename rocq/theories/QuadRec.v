(** QuadRec.v - quadratic reciprocity. The symbol of a modulo an odd n is the product of the signs of a, 2a, .., ha modulo n,
    h being half of n - 1 (Gauss and Schering): no primes are needed until Euler's criterion. Mathematics only. *)
From Coq Require Import ZArith Znumtheory Zpow_facts List Permutation Lia.
Import ListNotations.
Open Scope Z_scope.

(** sums and products *)
(** In proofs; for bip32/utils.go:119. *)
Definition prodZ (l : list Z) : Z := fold_right Z.mul 1 l.
(** In proofs; for bip32/utils.go:119. *)
Definition sumZ (l : list Z) : Z := fold_right Z.add 0 l.
(** 1, .., h *)
(** In proofs; for bip32/utils.go:119. *)
Definition upto (h : Z) : list Z := map Z.of_nat (seq 1 (Z.to_nat h)).
(** the sign of x modulo n, and its absolute value *)
(** In proofs; for bip32/utils.go:119. *)
Definition sgn (n x : Z) : Z := if 2 * (x mod n) <? n then 1 else -1.
(** In proofs; for bip32/utils.go:119. *)
Definition ab (n x : Z) : Z := if 2 * (x mod n) <? n then x mod n else n - x mod n.
(** In proofs; for bip32/utils.go:119. *)
Definition half (n : Z) : Z := (n - 1) / 2.
(** In proofs; for bip32/utils.go:119. *)
Definition chi (n a : Z) : Z := prodZ (map (fun i => sgn n (a * i)) (upto (half n))).

Lemma prodZ_app l m : prodZ (l ++ m) = prodZ l * prodZ m.
Proof. induction l as [|x l IH]; cbn [app prodZ fold_right]; [rewrite Z.mul_1_l; reflexivity|]. unfold prodZ in *. rewrite IH. ring. Qed.
Lemma prodZ_perm l m : Permutation l m -> prodZ l = prodZ m.
Proof. unfold prodZ. induction 1; cbn [fold_right]; [reflexivity|rewrite IHPermutation; reflexivity|ring|congruence]. Qed.
Lemma sumZ_perm l m : Permutation l m -> sumZ l = sumZ m.
Proof. unfold sumZ. induction 1; cbn [fold_right]; lia. Qed.
Lemma prodZ_mul {A} (f g : A -> Z) l : prodZ (map (fun i => f i * g i) l) = prodZ (map f l) * prodZ (map g l).
Proof. unfold prodZ, sumZ. induction l as [|x l IH]; [reflexivity|]. cbn [map fold_right]. rewrite IH. ring. Qed.
Lemma sumZ_add {A} (f g : A -> Z) l : sumZ (map (fun i => f i + g i) l) = sumZ (map f l) + sumZ (map g l).
Proof. unfold prodZ, sumZ. induction l as [|x l IH]; [reflexivity|]. cbn [map fold_right]. rewrite IH. ring. Qed.
Lemma sumZ_scale {A} c (f : A -> Z) l : sumZ (map (fun i => c * f i) l) = c * sumZ (map f l).
Proof. unfold sumZ. induction l as [|x l IH]; cbn [map fold_right]; [lia|]. rewrite IH. ring. Qed.
Lemma sumZ_ext {A} (f g : A -> Z) l : (forall i, In i l -> f i = g i) -> sumZ (map f l) = sumZ (map g l).
Proof. intros H. f_equal. apply map_ext_in, H. Qed.
Lemma in_upto h i : In i (upto h) <-> 1 <= i <= h.
Proof.
  unfold upto. rewrite in_map_iff. split.
  - intros (k & <- & K). apply in_seq in K. lia.
  - intros H. exists (Z.to_nat i). split; [lia|]. apply in_seq. lia.
Qed.
Lemma nodup_upto h : NoDup (upto h).
Proof. unfold upto. apply FinFun.Injective_map_NoDup; [intros x y; apply Nat2Z.inj|apply seq_NoDup]. Qed.
Lemma length_upto h : 0 <= h -> Z.of_nat (length (upto h)) = h.
Proof. intros H. unfold upto. rewrite map_length, seq_length. lia. Qed.
Lemma upto_S h : 0 <= h -> upto (h + 1) = upto h ++ [h + 1].
Proof.
  intros H. unfold upto. replace (Z.to_nat (h + 1)) with (Z.to_nat h + 1)%nat by lia. rewrite seq_app, map_app. cbn [seq map]. f_equal. f_equal. lia.
Qed.

Section Odd.
Variable n : Z.
Hypothesis Hn : 0 < n.
Hypothesis On : n mod 2 = 1.
Lemma half_eq : n = 2 * half n + 1.
Proof. unfold half. pose proof (Z.div_mod n 2 ltac:(lia)). replace (n - 1) with ((n / 2) * 2) by lia. rewrite Z.div_mul; lia. Qed.
Lemma half_nonneg : 0 <= half n. Proof. pose proof half_eq. lia. Qed.
Lemma sgn_ab x : sgn n x * ab n x mod n = x mod n.
Proof.
  unfold sgn, ab. destruct (2 * (x mod n) <? n); [rewrite Z.mul_1_l; apply Z.mod_mod; lia|].
  replace (-1 * (n - x mod n)) with (x mod n + (-1) * n) by ring. rewrite Z_mod_plus_full. apply Z.mod_mod. lia.
Qed.
Lemma ab_range x : x mod n <> 0 -> 1 <= ab n x <= half n.
Proof. intros Nz. pose proof half_eq. pose proof (Z.mod_pos_bound x n Hn). unfold ab. destruct (Z.ltb_spec (2 * (x mod n)) n); lia. Qed.
Lemma sgn_mod x y : x mod n = y mod n -> sgn n x = sgn n y. Proof. intros E. unfold sgn. rewrite E. reflexivity. Qed.
Lemma ab_mod x y : x mod n = y mod n -> ab n x = ab n y. Proof. intros E. unfold ab. rewrite E. reflexivity. Qed.
Lemma sgn_one x : sgn n x = 1 \/ sgn n x = -1. Proof. unfold sgn. destruct (_ <? _); auto. Qed.
Lemma sgn_opp x : x mod n <> 0 -> sgn n (- x) = - sgn n x.
Proof.
  intros Nz. pose proof half_eq. pose proof (Z.mod_pos_bound x n Hn). unfold sgn. rewrite Z_mod_nz_opp_full by exact Nz.
  destruct (Z.ltb_spec (2 * (n - x mod n)) n), (Z.ltb_spec (2 * (x mod n)) n); lia.
Qed.
Lemma prime_rel a i : Z.gcd a n = 1 -> (a * i) mod n = 0 -> i mod n = 0.
Proof.
  intros G E. apply Z.mod_divide in E; [|lia]. apply Z.mod_divide; [lia|]. apply (Gauss n a i); [exact E|]. apply Zgcd_1_rel_prime. rewrite Z.gcd_comm. exact G.
Qed.
Lemma small_nz i : 1 <= i <= half n -> i mod n <> 0.
Proof. intros H. pose proof half_eq. rewrite Z.mod_small by lia. lia. Qed.
Lemma ab_inj a i j : Z.gcd a n = 1 -> 1 <= i <= half n -> 1 <= j <= half n -> ab n (a * i) = ab n (a * j) -> i = j.
Proof.
  intros G Hi Hj E. pose proof half_eq as HE.
  assert (D : (a * (i - j)) mod n = 0 \/ (a * (i + j)) mod n = 0).
  { pose proof (sgn_ab (a * i)) as A. pose proof (sgn_ab (a * j)) as B. rewrite E in A.
    assert (S : sgn n (a * i) = sgn n (a * j) \/ sgn n (a * i) = - sgn n (a * j)) by (destruct (sgn_one (a * i)), (sgn_one (a * j)); lia).
    destruct S as [S|S]; rewrite S in A.
    - left. rewrite Z.mul_sub_distr_l. rewrite Zminus_mod, <- A, <- B, Z.sub_diag. apply Z.mod_0_l. lia.
    - right. rewrite Z.mul_add_distr_l. rewrite Z.add_mod, <- A, <- B by lia. rewrite <- Z.add_mod by lia.
      replace (- sgn n (a * j) * ab n (a * j) + sgn n (a * j) * ab n (a * j)) with 0 by ring. apply Z.mod_0_l. lia. }
  destruct D as [D|D]; apply prime_rel in D; try exact G.
  - apply Z.mod_divide in D; [|lia]. destruct D as [q D]. assert (q = 0) by nia. lia.
  - apply Z.mod_divide in D; [|lia]. destruct D as [q D]. exfalso. assert (q = 0 \/ 1 <= q \/ q <= -1) by lia. nia.
Qed.
Lemma ab_perm a : Z.gcd a n = 1 -> Permutation (map (fun i => ab n (a * i)) (upto (half n))) (upto (half n)).
Proof.
  intros G. apply NoDup_Permutation_bis.
  - assert (L : forall l, NoDup l -> (forall i, In i l -> 1 <= i <= half n) -> NoDup (map (fun i => ab n (a * i)) l)).
    { induction 1 as [|x l Nx ND IH]; intros B; cbn [map]; [constructor|]. constructor; [|apply IH; intros i Hi; apply B; right; exact Hi].
      rewrite in_map_iff. intros (j & E & Hj). apply Nx. apply ab_inj in E; [subst j; exact Hj|exact G|apply B; right; exact Hj|apply B; left; reflexivity]. }
    apply L; [apply nodup_upto|]. intros i. apply in_upto.
  - rewrite map_length. lia.
  - intros y Hy. apply in_map_iff in Hy as (i & <- & Hi). apply in_upto in Hi. apply in_upto. apply ab_range. intros C. apply prime_rel in C; [|exact G]. exact (small_nz i Hi C).
Qed.
Lemma chi_mod a b : a mod n = b mod n -> chi n a = chi n b.
Proof. intros E. unfold chi. f_equal. apply map_ext. intros i. apply sgn_mod. rewrite Z.mul_mod, E, <- Z.mul_mod by lia. reflexivity. Qed.
Lemma chi_mul a b : Z.gcd a n = 1 -> Z.gcd b n = 1 -> chi n (a * b) = chi n a * chi n b.
Proof.
  intros Ga Gb. unfold chi.
  transitivity (prodZ (map (fun i => sgn n (a * ab n (b * i)) * sgn n (b * i)) (upto (half n)))).
  - f_equal. apply map_ext_in. intros i Hi. apply in_upto in Hi.
    assert (E : (a * b * i) mod n = (sgn n (b * i) * (a * ab n (b * i))) mod n).
    { replace (sgn n (b * i) * (a * ab n (b * i))) with (a * (sgn n (b * i) * ab n (b * i))) by ring. rewrite (Z.mul_mod a (sgn n (b * i) * ab n (b * i))), sgn_ab, <- Z.mul_mod by lia. f_equal. ring. }
    rewrite (sgn_mod _ _ E). assert (Nz : (a * ab n (b * i)) mod n <> 0).
    { intros C. apply prime_rel in C; [|exact Ga]. apply (small_nz (ab n (b * i))); [|exact C]. apply ab_range. intros D. apply prime_rel in D; [|exact Gb]. exact (small_nz i Hi D). }
    destruct (sgn_one (b * i)) as [S|S]; rewrite S.
    + rewrite Z.mul_1_l, Z.mul_1_r. reflexivity.
    + replace (-1 * (a * ab n (b * i))) with (- (a * ab n (b * i))) by ring. rewrite sgn_opp by exact Nz. ring.
  - rewrite prodZ_mul. f_equal. rewrite <- (map_map (fun i => ab n (b * i)) (fun i => sgn n (a * i))). apply prodZ_perm. apply Permutation_map, ab_perm, Gb.
Qed.
Lemma sgn_sq x : sgn n x * sgn n x = 1. Proof. destruct (sgn_one x) as [->| ->]; reflexivity. Qed.
Lemma chi_one a : chi n a = 1 \/ chi n a = -1.
Proof. unfold chi. induction (upto (half n)) as [|x l IH]; cbn [map prodZ fold_right]; [auto|]. fold (prodZ (map (fun i => sgn n (a * i)) l)). destruct (sgn_one (a * x)) as [-> | ->], IH as [-> | ->]; auto. Qed.
Lemma chi_1 : chi n 1 = 1.
Proof.
  unfold chi. assert (L : forall l, (forall i, In i l -> 1 <= i <= half n) -> prodZ (map (fun i => sgn n (1 * i)) l) = 1).
  { induction l as [|x l IH]; intros B; [reflexivity|]. cbn [map prodZ fold_right]. unfold prodZ in IH. rewrite IH by (intros i Hi; apply B; right; exact Hi).
    specialize (B x (or_introl eq_refl)). pose proof half_eq. unfold sgn. rewrite Z.mul_1_l, Z.mod_small by lia. destruct (Z.ltb_spec (2 * x) n); lia. }
  apply L. intros i. apply in_upto.
Qed.
Lemma chi_pow a s : 0 <= s -> Z.gcd a n = 1 -> chi n (a ^ s) = chi n a ^ s.
Proof.
  intros Hs G. revert s Hs. apply natlike_ind; [exact chi_1|]. intros s Hs IH.
  assert (Gs : Z.gcd (a ^ s) n = 1) by (apply Zgcd_1_rel_prime; apply rel_prime_sym; apply rel_prime_Zpower_r; [exact Hs|]; apply rel_prime_sym; apply Zgcd_1_rel_prime; exact G).
  rewrite !Z.pow_succ_r, chi_mul, IH by assumption. reflexivity.
Qed.


End Odd.

(** ** Signs as parities *)
(** In proofs; for bip32/utils.go:119. *)
Definition par (c : Z) : Z := if c mod 2 =? 0 then 1 else -1.
Lemma par_mod a b : a mod 2 = b mod 2 -> par a = par b. Proof. unfold par. intros ->. reflexivity. Qed.
Lemma mod2 a : a mod 2 = 0 \/ a mod 2 = 1. Proof. pose proof (Z.mod_pos_bound a 2). lia. Qed.
Lemma par_add a b : par (a + b) = par a * par b.
Proof. unfold par. rewrite Z.add_mod by lia. destruct (mod2 a) as [->| ->], (mod2 b) as [->| ->]; reflexivity. Qed.
Lemma par_sum {A} (f : A -> Z) l : par (sumZ (map f l)) = prodZ (map (fun i => par (f i)) l).
Proof. unfold sumZ, prodZ. induction l as [|x l IH]; [reflexivity|]. cbn [map fold_right]. rewrite par_add, IH. reflexivity. Qed.
Lemma par_odd n q : n mod 2 = 1 -> par (n * q) = par q.
Proof. intros O. apply par_mod. rewrite Z.mul_mod, O, Z.mul_1_l, Z.mod_mod by lia. reflexivity. Qed.
Lemma par_sq c : par c * par c = 1. Proof. unfold par. destruct (_ =? _); reflexivity. Qed.
Lemma par_opp c : par (- c) = par c.
Proof. apply par_mod. replace (- c) with (c + (- c) * 2) by lia. apply Z_mod_plus_full. Qed.

(** Eisenstein: the symbol of an odd a is the parity of the sum of the quotients a i / n. *)
Lemma eisenstein n a : 0 < n -> n mod 2 = 1 -> a mod 2 = 1 -> Z.gcd a n = 1 -> chi n a = par (sumZ (map (fun i => a * i / n) (upto (half n)))).
Proof.
  intros Hn On Oa G. unfold chi. rewrite par_sum.
  assert (K : forall x, sgn n x * par x = par (x / n) * par (ab n x)).
  { intros x. pose proof (Z.div_mod x n ltac:(lia)) as D.
    assert (Px : par x = par (x / n) * par (x mod n)) by (rewrite D at 1; rewrite par_add, par_odd by exact On; reflexivity).
    rewrite Px. unfold sgn, ab. destruct (_ <? _); [ring|]. unfold Z.sub. rewrite par_add, par_opp. replace (par n) with (-1) by (unfold par; rewrite On; reflexivity). ring. }
  assert (L : prodZ (map (fun i => sgn n (a * i)) (upto (half n))) * prodZ (map (fun i => par (a * i)) (upto (half n)))
              = prodZ (map (fun i => par (a * i / n)) (upto (half n))) * prodZ (map (fun i => par (ab n (a * i))) (upto (half n)))).
  { rewrite <- !prodZ_mul. f_equal. apply map_ext. intros i. apply K. }
  assert (P1 : prodZ (map (fun i => par (a * i)) (upto (half n))) = prodZ (map par (upto (half n)))) by (f_equal; apply map_ext; intros i; apply par_odd, Oa).
  assert (P2 : prodZ (map (fun i => par (ab n (a * i))) (upto (half n))) = prodZ (map par (upto (half n)))).
  { rewrite <- (map_map (fun i => ab n (a * i)) par). apply prodZ_perm, Permutation_map, ab_perm; assumption. }
  rewrite P1, P2 in L. assert (Q : prodZ (map par (upto (half n))) * prodZ (map par (upto (half n))) = 1).
  { rewrite <- prodZ_mul. clear. unfold prodZ. induction (upto (half n)) as [|x l IH]; [reflexivity|]. cbn [map fold_right]. rewrite IH, par_sq. reflexivity. }
  revert L Q. generalize (prodZ (map par (upto (half n)))). intros z L Q.
  apply (f_equal (fun t => t * z)) in L. rewrite <- !Z.mul_assoc, Q, !Z.mul_1_r in L. exact L.
Qed.

(** counting lattice points *)
Lemma count_le m h : 0 <= m <= h -> forall f : Z -> bool, (forall j, 1 <= j <= h -> f j = true <-> j <= m) -> sumZ (map (fun j => if f j then 1 else 0) (upto h)) = m.
Proof.
  intros Hm f Hf. assert (Hh : 0 <= h) by lia. revert h Hh m Hm Hf. apply (natlike_ind (fun h => forall m, 0 <= m <= h -> (forall j, 1 <= j <= h -> f j = true <-> j <= m) -> sumZ (map (fun j => if f j then 1 else 0) (upto h)) = m)).
  - intros m Hm _. assert (m = 0) by lia. subst m. reflexivity.
  - intros h Hh IH m Hm Hf. unfold Z.succ in *. rewrite upto_S by exact Hh. rewrite map_app. cbn [map].
    assert (SA : forall l r, sumZ (l ++ [r]) = sumZ l + r) by (clear; intros l r; unfold sumZ; induction l as [|x l IH]; cbn [app fold_right]; lia).
    rewrite SA. pose proof (Hf (h + 1) ltac:(lia)) as Hl. destruct (f (h + 1)).
    + assert (m = h + 1) by (assert (h + 1 <= m) by tauto; lia). subst m. rewrite (IH h); [lia|lia|]. intros j Hj. rewrite Hf by lia. lia.
    + assert (m <= h) by (assert (~ h + 1 <= m) by (intros C; apply Hl in C; discriminate); lia). rewrite (IH m); [lia|lia|]. intros j Hj. apply Hf. lia.
Qed.
Lemma sum_swap (f : Z -> Z -> Z) l m : sumZ (map (fun i => sumZ (map (fun j => f i j) m)) l) = sumZ (map (fun j => sumZ (map (fun i => f i j) l)) m).
Proof.
  induction l as [|x l IH].
  - cbn [map]. unfold sumZ. cbn [fold_right]. induction m as [|y m IH]; [reflexivity|]. cbn [map fold_right]. rewrite <- IH. reflexivity.
  - cbn [map]. change (sumZ (?x :: ?y)) with (x + sumZ y). rewrite IH, <- sumZ_add. reflexivity.
Qed.
Lemma lattice n a : 0 < n -> 0 < a -> n mod 2 = 1 -> a mod 2 = 1 -> Z.gcd a n = 1 ->
  sumZ (map (fun i => a * i / n) (upto (half n))) + sumZ (map (fun j => n * j / a) (upto (half a))) = half n * half a.
Proof.
  intros Hn Ha On Oa G. pose proof (half_eq n On) as En. pose proof (half_eq a Oa) as Ea.
  pose proof (half_nonneg n Hn On) as Nn. pose proof (half_nonneg a Ha Oa) as Na.
  assert (C1 : forall i, In i (upto (half n)) -> a * i / n = sumZ (map (fun j => if n * j <=? a * i then 1 else 0) (upto (half a)))).
  { intros i Hi. apply in_upto in Hi. symmetry. apply count_le.
    - split; [apply Z.div_pos; nia|]. enough (a * i / n < half a + 1) by lia. apply Z.div_lt_upper_bound; [exact Hn|]. nia.
    - intros j Hj. rewrite Z.leb_le. split; intros H; [apply Z.div_le_lower_bound; [exact Hn|lia]|]. pose proof (Z.mul_div_le (a * i) n Hn). nia. }
  assert (C2 : forall j, In j (upto (half a)) -> n * j / a = sumZ (map (fun i => if a * i <=? n * j then 1 else 0) (upto (half n)))).
  { intros j Hj. apply in_upto in Hj. symmetry. apply count_le.
    - split; [apply Z.div_pos; nia|]. enough (n * j / a < half n + 1) by lia. apply Z.div_lt_upper_bound; [exact Ha|]. nia.
    - intros i Hi. rewrite Z.leb_le. split; intros H; [apply Z.div_le_lower_bound; [exact Ha|lia]|]. pose proof (Z.mul_div_le (n * j) a Ha). nia. }
  rewrite (sumZ_ext _ _ _ C1), (sumZ_ext _ _ _ C2), sum_swap, <- sumZ_add.
  rewrite (sumZ_ext _ (fun _ => half n)).
  - assert (S : forall {A} (l : list A) c, sumZ (map (fun _ => c) l) = c * Z.of_nat (length l)) by (clear; intros A l c; unfold sumZ; induction l as [|x l IH]; cbn [map fold_right length]; lia).
    rewrite S, length_upto by exact Na. reflexivity.
  - intros j Hj. apply in_upto in Hj. rewrite <- sumZ_add.
    rewrite (sumZ_ext _ (fun _ => 1)).
    + assert (S : forall {A} (l : list A) c, sumZ (map (fun _ => c) l) = c * Z.of_nat (length l)) by (clear; intros A l c; unfold sumZ; induction l as [|x l IH]; cbn [map fold_right length]; lia).
      rewrite S, length_upto by exact Nn. lia.
    + intros i Hi. apply in_upto in Hi. assert (Ne : n * j <> a * i).
      { intros E. assert (D : (a * i) mod n = 0) by (rewrite <- E, Z.mul_comm; apply Z.mod_mul; lia). apply (prime_rel n Hn a i G) in D. exact (small_nz n Hn On i Hi D). }
      destruct (Z.leb_spec (n * j) (a * i)), (Z.leb_spec (a * i) (n * j)); lia.
Qed.
(** Quadratic reciprocity. *)
Theorem reciprocity n a : 0 < n -> 0 < a -> n mod 2 = 1 -> a mod 2 = 1 -> Z.gcd a n = 1 -> chi n a = par (half n * half a) * chi a n.
Proof.
  intros Hn Ha On Oa G. assert (G' : Z.gcd n a = 1) by (rewrite Z.gcd_comm; exact G).
  rewrite (eisenstein n a), (eisenstein a n) by assumption. rewrite <- (lattice n a) by assumption. rewrite par_add, <- Z.mul_assoc, par_sq. ring.
Qed.
(** The symbol of 2. *)
Theorem chi_2 n : 0 < n -> n mod 2 = 1 -> chi n 2 = if orb (n mod 8 =? 3) (n mod 8 =? 5) then -1 else 1.
Proof.
  intros Hn On. pose proof (half_eq n On) as En. pose proof (half_nonneg n Hn On) as Nn.
  assert (E : chi n 2 = par (half n - n / 4)).
  { rewrite <- (length_upto (half n)) at 1 by exact Nn. unfold chi.
    assert (C : sumZ (map (fun j => if 4 * j <=? n then 1 else 0) (upto (half n))) = n / 4).
    { apply count_le; [split; [apply Z.div_pos; lia|]|].
      - enough (n / 4 < half n + 1) by lia. apply Z.div_lt_upper_bound; lia.
      - intros j Hj. rewrite Z.leb_le. split; intros H; [apply Z.div_le_lower_bound; lia|]. pose proof (Z.mul_div_le n 4 ltac:(lia)). lia. }
    rewrite <- C. clear C. assert (L : forall l, (forall i, In i l -> 1 <= i <= half n) ->
      prodZ (map (fun i => sgn n (2 * i)) l) = par (Z.of_nat (length l) - sumZ (map (fun j => if 4 * j <=? n then 1 else 0) l))).
    { induction l as [|x l IH]; intros B; [reflexivity|]. cbn [map]. change (prodZ (?x :: ?y)) with (x * prodZ y). change (sumZ (?x :: ?y)) with (x + sumZ y).
      rewrite IH by (intros i Hi; apply B; right; exact Hi). specialize (B x (or_introl eq_refl)). cbn [length]. rewrite Nat2Z.inj_succ.
      unfold sgn. rewrite Z.mod_small by lia. assert (D : n = 4 * (n / 4) + n mod 4) by (apply Z.div_mod; lia).
      assert (O4 : 4 * x <> n) by lia.
      destruct (Z.ltb_spec (2 * (2 * x)) n), (Z.leb_spec (4 * x) n); try lia.
      - rewrite Z.mul_1_l. f_equal. lia.
      - replace (Z.succ (Z.of_nat (length l)) - (0 + sumZ (map (fun j => if 4 * j <=? n then 1 else 0) l))) with (1 + (Z.of_nat (length l) - sumZ (map (fun j => if 4 * j <=? n then 1 else 0) l))) by lia.
        rewrite par_add. reflexivity. }
    apply L. intros i. apply in_upto. }
  rewrite E. pose proof (Z.div_mod n 8 ltac:(lia)) as D. pose proof (Z.mod_pos_bound n 8 ltac:(lia)) as B.
  set (k := n / 8) in *. set (r := n mod 8) in *. assert (O : r = 1 \/ r = 3 \/ r = 5 \/ r = 7).
  { pose proof (Z.div_mod n 2 ltac:(lia)). lia. }
  clearbody k r. destruct O as [-> | [-> | [-> | ->]]]; cbn [Z.eqb orb Pos.eqb].
  - replace (n / 4) with (2 * k) by (apply (Z.div_unique n 4 (2 * k) 1); lia). replace (half n - 2 * k) with (0 + k * 2) by lia. unfold par. rewrite Z_mod_plus_full. reflexivity.
  - replace (n / 4) with (2 * k) by (apply (Z.div_unique n 4 (2 * k) 3); lia). replace (half n - 2 * k) with (1 + k * 2) by lia. unfold par. rewrite Z_mod_plus_full. reflexivity.
  - replace (n / 4) with (2 * k + 1) by (apply (Z.div_unique n 4 (2 * k + 1) 1); lia). replace (half n - (2 * k + 1)) with (1 + k * 2) by lia. unfold par. rewrite Z_mod_plus_full. reflexivity.
  - replace (n / 4) with (2 * k + 1) by (apply (Z.div_unique n 4 (2 * k + 1) 3); lia). replace (half n - (2 * k + 1)) with (0 + (k + 1) * 2) by lia. unfold par. rewrite Z_mod_plus_full. reflexivity.
Qed.

(** ** Gauss' lemma: modulo a prime the symbol is the power (p-1)/2. *)
Lemma prod_pow a l : prodZ (map (fun i => a * i) l) = a ^ Z.of_nat (length l) * prodZ l.
Proof. unfold prodZ. induction l as [|x l IH]; [reflexivity|]. cbn [map fold_right length]. rewrite IH, Nat2Z.inj_succ, Z.pow_succ_r by lia. ring. Qed.
Lemma prod_mod {A} n (f g : A -> Z) l : (forall i, In i l -> f i mod n = g i mod n) -> prodZ (map f l) mod n = prodZ (map g l) mod n.
Proof.
  unfold prodZ. induction l as [|x l IH]; intros H; [reflexivity|]. cbn [map fold_right]. rewrite Zmult_mod, IH, (H x), <- Zmult_mod; [reflexivity|left; reflexivity|]. intros i Hi. apply H. right. exact Hi.
Qed.
Theorem gauss p a : prime p -> p mod 2 = 1 -> a mod p <> 0 -> a ^ half p mod p = chi p a mod p.
Proof.
  intros Pp Op Na. assert (Hp : 0 < p) by (pose proof (prime_ge_2 p Pp); lia).
  assert (G : Z.gcd a p = 1).
  { apply Zgcd_1_rel_prime, rel_prime_sym, prime_rel_prime; [exact Pp|]. intros D. apply Na. apply Z.mod_divide; [lia|exact D]. }
  assert (E : (a ^ half p * prodZ (upto (half p))) mod p = (chi p a * prodZ (upto (half p))) mod p).
  { rewrite <- (length_upto (half p)) at 1 by (apply half_nonneg; assumption). rewrite <- prod_pow. unfold chi.
    rewrite <- (prodZ_perm _ _ (ab_perm p Hp Op a G)). rewrite <- prodZ_mul. apply prod_mod. intros i _. symmetry. apply sgn_ab, Hp. }
  assert (R : forall l, (forall i, In i l -> 1 <= i <= half p) -> Z.gcd (prodZ l) p = 1).
  { clear E. induction l as [|x l IH]; intros B; [apply Z.gcd_1_l|]. change (prodZ (x :: l)) with (x * prodZ l).
    apply Zgcd_1_rel_prime, rel_prime_sym, rel_prime_mult; apply rel_prime_sym, Zgcd_1_rel_prime.
    - apply Zgcd_1_rel_prime, rel_prime_sym, prime_rel_prime; [exact Pp|]. intros D. apply (small_nz p Hp Op x (B x (or_introl eq_refl))). apply Z.mod_divide; [lia|exact D].
    - apply IH. intros i Hi. apply B. right. exact Hi. }
  specialize (R (upto (half p)) (fun i => proj1 (in_upto _ i))). revert E R. generalize (prodZ (upto (half p))). intros f E R.
  assert (D : (f * (a ^ half p - chi p a)) mod p = 0).
  { replace (f * (a ^ half p - chi p a)) with (a ^ half p * f - chi p a * f) by ring. rewrite Zminus_mod, E, Z.sub_diag. apply Z.mod_0_l. lia. }
  apply (prime_rel p Hp f _ R) in D. apply Z.mod_divide in D; [|lia]. destruct D as [q D]. replace (a ^ half p) with (chi p a + q * p) by lia. apply Z_mod_plus_full.
Qed.
