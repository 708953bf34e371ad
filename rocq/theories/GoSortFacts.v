(** GoSortFacts.v - sort.Slice as written sorts: its result is a rearrangement of the slice in order, no index is out of range,
    and every loop ends. *)
From Verif Require Import Base BaseFacts GoStr Bip32 Bip44 Bip44Facts GoSort.
From Coq Require Import Lia Permutation Sorting.Sorted.

Lemma lset_length {A} (l : list A) : forall i x, length (lset l i x) = length l.
Proof. induction l as [|y r IH]; intros [|i] x; cbn; auto. Qed.
Lemma lset_nth {A} (d : A) (l : list A) : forall i j x, (i < length l)%nat -> nth j (lset l i x) d = if Nat.eqb j i then x else nth j l d.
Proof.
  induction l as [|y r IH]; intros i j x H; cbn in H; [lia|].
  destruct i as [|i], j as [|j]; cbn; auto. apply IH. lia.
Qed.
Lemma lset_swap {A} (d : A) (l : list A) : forall i j, (i < length l)%nat -> (j < length l)%nat ->
  Permutation l (lset (lset l i (nth j l d)) j (nth i l d)).
Proof.
  intros i j Hi Hj. apply (Permutation_nth _ _ d). split; [rewrite !lset_length; reflexivity|].
  exists (fun k => if Nat.eqb k i then j else if Nat.eqb k j then i else k).
  split; [|split].
  - intros k Hk. destruct (Nat.eqb_spec k i); [lia|]. destruct (Nat.eqb_spec k j); lia.
  - intros x y Hx Hy. destruct (Nat.eqb_spec x i), (Nat.eqb_spec y i), (Nat.eqb_spec x j), (Nat.eqb_spec y j); lia.
  - intros k Hk. rewrite !lset_nth by (rewrite ?lset_length; lia).
    destruct (Nat.eqb_spec k i), (Nat.eqb_spec k j); subst; auto.
Qed.

Lemma nth_skipn_d {A} (d : A) n : forall (l : list A) k, nth k (skipn n l) d = nth (n + k) l d.
Proof. induction n as [|n IH]; intros [|x l] k; cbn; auto. destruct k; reflexivity. Qed.
Lemma nth_firstn_lt {A} (d : A) n : forall (l : list A) k, (k < n)%nat -> nth k (firstn n l) d = nth k l d.
Proof. induction n as [|n IH]; intros [|x l] [|k] H; cbn; auto; try lia. apply IH. lia. Qed.
Lemma skipn_skipn_d {A} n : forall (l : list A) m, skipn n (skipn m l) = skipn (m + n) l.
Proof. intros l m. revert l. induction m as [|m IH]; intros [|x l]; cbn; auto. apply skipn_nil. Qed.

Section Facts.
Context {A : Type}.
Variable lt : A -> A -> bool.
Variable Next : Z -> Z.
Variable d : A.
(** [lt] is a strict order whose incomparability is transitive. *)
(** In proofs; for bip44/coins.go:1152-1154. *)
Definition le (x y : A) : Prop := lt y x = false.
Hypothesis le_trans : forall x y z, le x y -> le y z -> le x z.
Hypothesis lt_asym : forall x y, lt x y = true -> lt y x = false.

Notation val l i := (nth (Z.to_nat i) l d).
Notation len l := (Z.of_nat (length l)).
Notation Less := (Less lt).

Lemma le_refl x : le x x.
Proof. unfold le. destruct (lt x x) eqn:E; [|reflexivity]. rewrite (lt_asym _ _ E) in E. discriminate. Qed.
Lemma lt_le x y : lt x y = true -> le x y.
Proof. apply lt_asym. Qed.

Lemma at_ok l i : 0 <= i < len l -> at_ l i = Ret (val l i).
Proof.
  intros H. unfold at_. destruct (Z.ltb_spec i 0); [lia|]. rewrite (nth_error_nth' l d) by lia. reflexivity.
Qed.
Lemma Less_ok l i j : 0 <= i < len l -> 0 <= j < len l -> Less l i j = Ret (lt (val l i) (val l j)).
Proof. intros Hi Hj. unfold GoSort.Less. rewrite (at_ok l i Hi). cbn [bind]. rewrite (at_ok l j Hj). reflexivity. Qed.

(** Rearranged between [a] and [b] only. *)
(** In proofs; for bip44/coins.go:1152-1154. *)
Definition R (a b : Z) (l l' : list A) : Prop :=
  length l' = length l /\ (forall k, 0 <= k -> ~ (a <= k < b) -> val l' k = val l k) /\ Permutation l l'.
Lemma R_refl a b l : R a b l l.
Proof. split; [reflexivity|split; [reflexivity|apply Permutation_refl]]. Qed.
Lemma R_trans a b l1 l2 l3 : R a b l1 l2 -> R a b l2 l3 -> R a b l1 l3.
Proof.
  intros (L & F & P) (L' & F' & P'). split; [congruence|]. split; [|eapply Permutation_trans; eassumption].
  intros k K N. rewrite F', F by assumption. reflexivity.
Qed.
Lemma R_wider a b a' b' l l' : a' <= a -> b <= b' -> R a b l l' -> R a' b' l l'.
Proof. intros Ha Hb (L & F & P). split; [exact L|]. split; [|exact P]. intros k K N. apply F; [exact K|lia]. Qed.
Lemma R_len a b l l' : R a b l l' -> length l' = length l.
Proof. intros H; apply H. Qed.
Lemma R_out a b l l' k : R a b l l' -> 0 <= k -> ~ (a <= k < b) -> val l' k = val l k.
Proof. intros H. apply H. Qed.

Lemma split3 (l : list A) a b : (a <= b <= length l)%nat ->
  l = firstn a l ++ firstn (b - a) (skipn a l) ++ skipn b l.
Proof.
  intros H. rewrite <- (firstn_skipn a l) at 1. f_equal. rewrite <- (firstn_skipn (b - a) (skipn a l)) at 1. f_equal.
  rewrite skipn_skipn_d. f_equal. lia.
Qed.
Lemma R_all a b l l' (P : A -> Prop) : 0 <= a -> a <= b -> b <= len l -> R a b l l' ->
  (forall k, a <= k < b -> P (val l k)) -> (forall k, a <= k < b -> P (val l' k)).
Proof.
  intros Ha Hab Hb (L & F & Pm) H.
  assert (E1 : firstn (Z.to_nat a) l' = firstn (Z.to_nat a) l).
  { apply (nth_ext _ _ d d); [rewrite !firstn_length; lia|]. intros n Hn. rewrite firstn_length in Hn.
    rewrite !nth_firstn_lt by lia. specialize (F (Z.of_nat n)). rewrite Nat2Z.id in F. apply F; lia. }
  assert (E2 : skipn (Z.to_nat b) l' = skipn (Z.to_nat b) l).
  { apply (nth_ext _ _ d d); [rewrite !skipn_length; lia|]. intros n Hn. rewrite skipn_length in Hn.
    rewrite !nth_skipn_d. specialize (F (Z.of_nat (Z.to_nat b + n))). rewrite Nat2Z.id in F. apply F; lia. }
  pose proof (split3 l (Z.to_nat a) (Z.to_nat b) ltac:(lia)) as S1. pose proof (split3 l' (Z.to_nat a) (Z.to_nat b) ltac:(lia)) as S2.
  set (m := firstn _ (skipn _ l)) in *. set (m' := firstn _ (skipn _ l')) in *. rewrite E1, E2 in S2.
  assert (Pm' : Permutation m m').
  { rewrite S1, S2 in Pm. apply Permutation_app_inv_l, Permutation_app_inv_r in Pm. exact Pm. }
  assert (HM : Forall P m).
  { apply Forall_forall. intros x Hx. apply (In_nth _ _ d) in Hx. destruct Hx as (n & Hn & <-).
    unfold m in Hn |- *. rewrite firstn_length, skipn_length in Hn. rewrite nth_firstn_lt by lia. rewrite nth_skipn_d.
    specialize (H (Z.of_nat (Z.to_nat a + n))). rewrite Nat2Z.id in H. apply H. lia. }
  assert (HM' : Forall P m') by (eapply Permutation_Forall; eassumption).
  intros k Hk. rewrite Forall_forall in HM'. apply HM'. unfold m'.
  replace (val l' k) with (nth (Z.to_nat k - Z.to_nat a) (firstn (Z.to_nat b - Z.to_nat a) (skipn (Z.to_nat a) l')) d).
  - apply nth_In. rewrite firstn_length, skipn_length. lia.
  - rewrite nth_firstn_lt by lia. rewrite nth_skipn_d. f_equal. lia.
Qed.
(** A predicate on all of a wider range survives. *)
Lemma R_all' a b a' b' l l' (P : A -> Prop) : 0 <= a -> a <= b -> b <= len l -> a' <= a -> b <= b' -> 0 <= a' -> R a b l l' ->
  (forall k, a' <= k < b' -> P (val l k)) -> (forall k, a' <= k < b' -> P (val l' k)).
Proof.
  intros Ha Hab Hb Ha' Hb' H0 HR H k Hk. destruct (Z_lt_dec k a); [|destruct (Z_lt_dec k b)].
  - rewrite (R_out _ _ _ _ k HR) by lia. apply H; lia.
  - apply (R_all a b l l' P); auto; try lia. intros; apply H; lia.
  - rewrite (R_out _ _ _ _ k HR) by lia. apply H; lia.
Qed.

Lemma Swap_ok a b l i j : 0 <= a -> b <= len l -> a <= i < b -> a <= j < b -> exists l', Swap l i j = Ret l' /\ R a b l l' /\
  (forall k, 0 <= k -> val l' k = if k =? j then val l i else if k =? i then val l j else val l k).
Proof.
  intros Ha Hb Hi Hj. unfold Swap. rewrite (at_ok l i) by lia. cbn [bind]. rewrite (at_ok l j) by lia. cbn [bind].
  eexists. split; [reflexivity|].
  assert (V : forall k, 0 <= k -> nth (Z.to_nat k) (lset (lset l (Z.to_nat i) (val l j)) (Z.to_nat j) (val l i)) d =
    if k =? j then val l i else if k =? i then val l j else val l k).
  { intros k K. rewrite !lset_nth by (rewrite ?lset_length; lia).
    destruct (Nat.eqb_spec (Z.to_nat k) (Z.to_nat j)), (Z.eqb_spec k j); try lia; auto.
    destruct (Nat.eqb_spec (Z.to_nat k) (Z.to_nat i)), (Z.eqb_spec k i); try lia; auto. }
  split; [|exact V]. split; [rewrite !lset_length; reflexivity|]. split.
  - intros k K N. rewrite V by exact K. destruct (Z.eqb_spec k j); [lia|]. destruct (Z.eqb_spec k i); [lia|reflexivity].
  - apply lset_swap; lia.
Qed.

(** In proofs; for bip44/coins.go:1152-1154. *)
Definition sorted (a b : Z) (l : list A) : Prop := forall i j, a <= i -> i < j -> j < b -> le (val l i) (val l j).
(** In proofs; for bip44/coins.go:1152-1154. *)
Definition done (a b : Z) (l : list A) (r : outcome (list A)) : Prop := exists l', r = Ret l' /\ R a b l l' /\ sorted a b l'.

Ltac dz := repeat match goal with |- context [?x =? ?y] => destruct (Z.eqb_spec x y); subst; try lia end.

(** ** Insertion sort *)
Lemma ins_inner_ok : forall fuel a i l j, (Z.to_nat (j - a) < fuel)%nat -> 0 <= a -> a <= j -> j <= i -> i < len l ->
  (forall p q, a <= p -> p < q -> q <= i -> q <> j -> le (val l p) (val l q)) -> done a (i + 1) l (ins_inner lt fuel l a j).
Proof.
  induction fuel as [|fuel IH]; intros a i l j HF Ha Haj Hji Hi H; [lia|]. cbn [ins_inner].
  destruct (Z.gtb_spec j a).
  - rewrite Less_ok by lia. cbn [bind]. destruct (lt (val l j) (val l (j - 1))) eqn:E.
    + destruct (Swap_ok a (i + 1) l j (j - 1)) as (l1 & S1 & R1 & V1); try lia. rewrite S1. cbn [bind].
      destruct (IH a i l1 (j - 1)) as (l2 & S2 & R2 & O2); try lia.
      * rewrite (R_len _ _ _ _ R1). lia.
      * intros p q Hp Hpq Hq Hn. rewrite !V1 by lia. dz.
        -- apply lt_le, E.
        -- apply H; lia.
        -- apply H; lia.
        -- apply H; lia.
        -- apply H; lia.
      * exists l2. split; [exact S2|]. split; [eapply R_trans; eassumption|exact O2].
    + exists l. split; [reflexivity|]. split; [apply R_refl|]. intros p q Hp Hpq Hq.
      destruct (Z.eq_dec q j) as [->|N]; [|apply H; lia].
      destruct (Z.eq_dec p (j - 1)) as [->|N]; [exact E|]. apply (le_trans _ (val l (j - 1))); [apply H; lia|exact E].
  - exists l. split; [reflexivity|]. split; [apply R_refl|]. intros p q Hp Hpq Hq. apply H; lia.
Qed.
Lemma ins_outer_ok : forall fuel a b l i, (Z.to_nat (b - i) < fuel)%nat -> 0 <= a -> a < i -> b <= len l -> sorted a i l ->
  done a (Z.max i b) l (ins_outer lt fuel l a b i).
Proof.
  induction fuel as [|fuel IH]; intros a b l i HF Ha Hi Hb H; [lia|]. cbn [ins_outer].
  destruct (Z.ltb_spec i b).
  - destruct (ins_inner_ok (S (Z.to_nat (i - a))) a i l i) as (l1 & S1 & R1 & O1); try lia.
    { intros p q Hp Hpq Hq N. apply H; lia. }
    rewrite S1. cbn [bind]. destruct (IH a b l1 (i + 1)) as (l2 & S2 & R2 & O2); try lia.
    { rewrite (R_len _ _ _ _ R1). lia. } { exact O1. }
    exists l2. split; [exact S2|]. split.
    + eapply R_trans; [eapply R_wider; [| |exact R1]; lia|]. eapply R_wider; [| |exact R2]; lia.
    + intros p q Hp Hpq Hq. apply O2; lia.
  - exists l. split; [reflexivity|]. split; [apply R_refl|]. intros p q Hp Hpq Hq. apply H; lia.
Qed.
Lemma insertionSort_ok a b l : 0 <= a -> a <= b -> b <= len l -> done a b l (insertionSort lt l a b).
Proof.
  intros Ha Hab Hb. unfold insertionSort. destruct (Z.eq_dec a b) as [->|N].
  - rewrite Z.sub_diag. cbn [Z.to_nat ins_outer]. destruct (Z.ltb_spec (b + 1) b); [lia|]. exists l. split; [reflexivity|].
    split; [apply R_refl|]. intros p q Hp Hpq Hq. lia.
  - destruct (ins_outer_ok (S (Z.to_nat (b - a))) a b l (a + 1)) as (l' & S & RR & O); try lia.
    { intros p q Hp Hpq Hq. lia. }
    exists l'. split; [exact S|]. rewrite Z.max_r in * by lia. auto.
Qed.

(** ** Heap sort *)
(** In proofs; for bip44/coins.go:1152-1154. *)
Definition child_of (k c : Z) : Prop := c = 2 * k + 1 \/ c = 2 * k + 2.
(** In proofs; for bip44/coins.go:1152-1154. *)
Definition heap (f lo hi : Z) (l : list A) : Prop := forall k c, lo <= k -> child_of k c -> c < hi -> le (val l (f + c)) (val l (f + k)).
(** In proofs; for bip44/coins.go:1152-1154. *)
Definition heap_but (f lo hi root : Z) (l : list A) : Prop :=
  (forall k c, lo <= k -> k <> root -> child_of k c -> c < hi -> le (val l (f + c)) (val l (f + k))) /\
  (forall k c, lo <= k -> child_of k root -> child_of root c -> c < hi -> le (val l (f + c)) (val l (f + k))).
Lemma siftDown_ok : forall fuel f lo hi l root, (Z.to_nat (hi - root) < fuel)%nat -> 0 <= f -> 0 <= lo -> lo <= root -> f + hi <= len l ->
  heap_but f lo hi root l -> exists l', siftDown lt fuel l root hi f = Ret l' /\ R f (f + hi) l l' /\ heap f lo hi l'.
Proof.
  induction fuel as [|fuel IH]; intros f lo hi l root HF Hf Hlo Hr Hh (H1 & H2); [lia|]. cbn [siftDown]. cbv zeta.
  destruct (Z.geb_spec (2 * root + 1) hi).
  - exists l. split; [reflexivity|]. split; [apply R_refl|]. intros k c Hk Hc Hch. apply H1; auto. unfold child_of in *; lia.
  - match goal with |- context [bind ?e _] => assert (E : exists c, e = Ret c /\ (c = true -> 2 * root + 2 < hi /\ le (val l (f + (2 * root + 1))) (val l (f + (2 * root + 2)))) /\
      (c = false -> 2 * root + 2 < hi -> le (val l (f + (2 * root + 2))) (val l (f + (2 * root + 1))))) end.
    { destruct (Z.ltb_spec (2 * root + 1 + 1) hi).
      - rewrite Less_ok by lia. replace (f + (2 * root + 1) + 1) with (f + (2 * root + 2)) by lia. eexists. split; [reflexivity|]. split; intros E.
        + split; [lia|]. apply lt_le, E.
        + intros _. exact E.
      - exists false. split; [reflexivity|]. split; [discriminate|lia]. }
    destruct E as (c & E & Ct & Cf). rewrite E. cbn [bind].
    set (ch := if c then 2 * root + 1 + 1 else 2 * root + 1).
    assert (Hch : child_of root ch /\ ch < hi) by (unfold ch, child_of; destruct c; [destruct (Ct eq_refl)|]; lia).
    assert (Hmax : forall o, child_of root o -> o < hi -> le (val l (f + o)) (val l (f + ch))).
    { intros o Ho Hoh. unfold ch, child_of in *. destruct c.
      - destruct (Ct eq_refl) as (A1 & A2). replace (2 * root + 1 + 1) with (2 * root + 2) by lia.
        destruct Ho as [-> | ->]; [exact A2|apply le_refl].
      - destruct Ho as [-> | ->]; [apply le_refl|apply (Cf eq_refl Hoh)]. }
    clearbody ch. clear Ct Cf E c. destruct Hch as (Hch & Hchh). assert (root < ch) by (unfold child_of in *; lia).
    rewrite Less_ok by lia. cbn [bind]. destruct (lt (val l (f + root)) (val l (f + ch))) eqn:E; cbn [negb].
    + destruct (Swap_ok f (f + hi) l (f + root) (f + ch)) as (l1 & S1 & R1 & V1); try lia. rewrite S1. cbn [bind].
      destruct (IH f lo hi l1 ch) as (l2 & S2 & R2 & O2); try lia.
      { rewrite (R_len _ _ _ _ R1). lia. }
      { split.
        - intros k o Hk Hko Ho Hoh. assert (k < o) by (unfold child_of in *; lia). rewrite !V1 by lia.
          destruct (Z.eq_dec k root) as [->|N].
          + replace (f + root =? f + ch) with false by lia. replace (f + root =? f + root) with true by lia.
            destruct (Z.eqb_spec (f + o) (f + ch)); [apply lt_le, E|]. destruct (Z.eqb_spec (f + o) (f + root)); [lia|]. apply Hmax; auto.
          + replace (f + k =? f + ch) with false by lia. replace (f + k =? f + root) with false by lia.
            destruct (Z.eqb_spec (f + o) (f + ch)); [unfold child_of in *; lia|].
            destruct (Z.eqb_spec (f + o) (f + root)); [|apply H1; auto].
            assert (o = root) by lia; subst o. apply H2; auto.
        - intros k o Hk Hkr Ho Hoh. assert (k = root) by (unfold child_of in *; lia). subst k. assert (ch < o) by (unfold child_of in *; lia). rewrite !V1 by lia.
          replace (f + root =? f + ch) with false by lia. replace (f + root =? f + root) with true by lia.
          replace (f + o =? f + ch) with false by lia. replace (f + o =? f + root) with false by lia. apply H1; auto; lia. }
      exists l2. split; [exact S2|]. split; [eapply R_trans; eassumption|exact O2].
    + exists l. split; [reflexivity|]. split; [apply R_refl|]. intros k o Hk Ho Hoh.
      destruct (Z.eq_dec k root) as [->|N]; [|apply H1; auto]. apply (le_trans _ (val l (f + ch))); [apply Hmax; auto|exact E].
Qed.
Lemma heap_build_ok : forall fuel f hi l i, (Z.to_nat (i + 1) < fuel)%nat -> 0 <= f -> -1 <= i -> f + hi <= len l -> heap f (i + 1) hi l ->
  exists l', heap_build lt fuel l i hi f = Ret l' /\ R f (f + hi) l l' /\ heap f 0 hi l'.
Proof.
  induction fuel as [|fuel IH]; intros f hi l i HF Hf Hi Hh H; [lia|]. cbn [heap_build].
  destruct (Z.geb_spec i 0).
  - destruct (siftDown_ok (S (Z.to_nat hi)) f i hi l i) as (l1 & S1 & R1 & O1); try lia.
    { split; [intros k c Hk N Hc Hch; apply H; auto; lia|]. intros k c Hk Hki. unfold child_of in *; lia. }
    rewrite S1. cbn [bind]. destruct (IH f hi l1 (i - 1)) as (l2 & S2 & R2 & O2); try lia.
    { rewrite (R_len _ _ _ _ R1). lia. } { replace (i - 1 + 1) with i by lia. exact O1. }
    exists l2. split; [exact S2|]. split; [eapply R_trans; eassumption|exact O2].
  - exists l. split; [reflexivity|]. split; [apply R_refl|]. replace 0 with (i + 1) by lia. exact H.
Qed.
Lemma heap_root f hi l : heap f 0 hi l -> forall n k, (Z.to_nat k < n)%nat -> 0 <= k < hi -> le (val l (f + k)) (val l f).
Proof.
  intros H. induction n as [|n IH]; intros k Hn Hk; [lia|]. destruct (Z.eq_dec k 0) as [->|N].
  - rewrite Z.add_0_r. apply le_refl.
  - pose proof (Z.div_mod (k - 1) 2 ltac:(lia)) as E. pose proof (Z.mod_pos_bound (k - 1) 2 ltac:(lia)) as B.
    set (p := (k - 1) / 2) in *. assert (C : child_of p k) by (unfold child_of; lia).
    apply (le_trans _ (val l (f + p))); [apply H; auto; unfold child_of in C; lia|apply IH; unfold child_of in C; lia].
Qed.
Lemma heap_pop_ok : forall fuel f hi l i, (Z.to_nat (i + 1) < fuel)%nat -> 0 <= f -> -1 <= i -> i < hi -> f + hi <= len l -> heap f 0 (i + 1) l ->
  (forall p q, 0 <= p <= i -> i < q < hi -> le (val l (f + p)) (val l (f + q))) -> sorted (f + i + 1) (f + hi) l ->
  done f (f + hi) l (heap_pop lt fuel l i f).
Proof.
  induction fuel as [|fuel IH]; intros f hi l i HF Hf Hi Hih Hh H HB HS; [lia|]. cbn [heap_pop].
  destruct (Z.geb_spec i 0).
  - destruct (Swap_ok f (f + (i + 1)) l f (f + i)) as (l1 & S1 & R1 & V1); try lia. rewrite S1. cbn [bind].
    assert (V1' : forall k, 0 <= k -> val l1 (f + k) = if k =? i then val l f else if k =? 0 then val l (f + i) else val l (f + k)).
    { intros k K. rewrite V1 by lia. destruct (Z.eqb_spec (f + k) (f + i)), (Z.eqb_spec k i); try lia; auto.
      destruct (Z.eqb_spec (f + k) f), (Z.eqb_spec k 0); try lia; auto. }
    assert (L1 : len l1 = len l) by (rewrite (R_len _ _ _ _ R1); reflexivity).
    destruct (siftDown_ok (S (Z.to_nat i)) f 0 i l1 0) as (l2 & S2 & R2 & O2); try lia.
    { split.
      - intros k c Hk N Hc Hci. unfold child_of in Hc. rewrite !V1' by lia. dz. apply H; unfold child_of; lia.
      - intros k c Hk Hk0. unfold child_of in *; lia. }
    rewrite S2. cbn [bind]. assert (L2 : len l2 = len l1) by (rewrite (R_len _ _ _ _ R2); reflexivity).
    assert (M1 : forall p, 0 <= p <= i -> le (val l1 (f + p)) (val l f)).
    { intros p Hp. rewrite V1' by lia. pose proof (heap_root f (i + 1) l H (S (Z.to_nat p)) p ltac:(lia) ltac:(lia)).
      pose proof (heap_root f (i + 1) l H (S (Z.to_nat i)) i ltac:(lia) ltac:(lia)). dz; auto using le_refl. }
    assert (M2 : forall x, f <= x < f + i -> le (val l2 x) (val l f)).
    { apply (R_all f (f + i) l1 l2 (fun v => le v (val l f))); auto; try lia. intros k Hk. replace k with (f + (k - f)) by lia. apply M1. lia. }
    assert (T2 : forall q, i <= q -> q < hi -> val l2 (f + q) = if q =? i then val l f else val l (f + q)).
    { intros q Hq Hqh. rewrite (R_out _ _ _ _ (f + q) R2) by lia. rewrite V1' by lia. dz; auto. }
    assert (Low : forall q, i < q < hi -> le (val l f) (val l (f + q))).
    { intros q Hq. pose proof (HB 0 q ltac:(lia) ltac:(lia)) as X. rewrite Z.add_0_r in X. exact X. }
    destruct (IH f hi l2 (i - 1)) as (l3 & S3 & R3 & O3); try lia.
    { replace (i - 1 + 1) with i by lia. exact O2. }
    { intros p q Hp Hq. apply (le_trans _ (val l f)); [apply M2; lia|]. rewrite T2 by lia. dz; [apply le_refl|apply Low; lia]. }
    { intros x y Hx Hxy Hy. replace x with (f + (x - f)) by lia. replace y with (f + (y - f)) by lia. rewrite !T2 by lia.
      destruct (Z.eqb_spec (y - f) i); [lia|]. destruct (Z.eqb_spec (x - f) i); [apply Low; lia|].
      apply HS; lia. }
    exists l3. split; [exact S3|]. split; [|exact O3]. eapply R_trans; [eapply R_wider; [| |exact R1]; lia|].
    eapply R_trans; [eapply R_wider; [| |exact R2]; lia|exact R3].
  - exists l. split; [reflexivity|]. split; [apply R_refl|]. intros x y Hx Hxy Hy. apply HS; lia.
Qed.
Lemma heapSort_ok a b l : 0 <= a -> a <= b -> b <= len l -> done a b l (heapSort lt l a b).
Proof.
  intros Ha Hab Hb. unfold heapSort. cbv zeta. set (hi := b - a). assert (Ehi : b = a + hi) by (unfold hi; lia).
  pose proof (Z.quot_rem (hi - 1) 2 ltac:(lia)) as E. pose proof (Z.rem_bound_abs (hi - 1) 2 ltac:(lia)) as B.
  set (i0 := Z.quot (hi - 1) 2) in *. assert (0 <= i0 /\ i0 <= hi /\ hi <= 2 * i0 + 2) by (unfold hi in *; split; [unfold i0; destruct (Z.eq_dec b a); [replace (b - a) with 0 by lia; cbn; lia|apply Z.quot_pos; lia]|lia]).
  destruct (heap_build_ok (S (S (Z.to_nat hi))) a hi l i0) as (l1 & S1 & R1 & O1); try lia.
  { intros k c Hk Hc Hch. unfold child_of in Hc. lia. }
  rewrite S1. cbn [bind]. assert (L1 : len l1 = len l) by (rewrite (R_len _ _ _ _ R1); reflexivity).
  destruct (heap_pop_ok (S (Z.to_nat hi)) a hi l1 (hi - 1)) as (l2 & S2 & R2 & O2); try lia.
  { replace (hi - 1 + 1) with hi by lia. exact O1. }
  { intros x y Hx Hxy Hy. lia. }
  exists l2. rewrite Ehi. split; [exact S2|]. split; [eapply R_trans; eassumption|exact O2].
Qed.

(** ** Partitions *)
Lemma up_less_ok : forall fuel l a i j, (Z.to_nat (j + 1 - i) < fuel)%nat -> 0 <= a < len l -> 0 <= i <= j + 1 -> j < len l ->
  exists i', up_less lt fuel l a i j = Ret i' /\ i <= i' <= j + 1 /\ (forall k, i <= k < i' -> lt (val l k) (val l a) = true) /\
    (i' <= j -> lt (val l i') (val l a) = false).
Proof.
  induction fuel as [|fuel IH]; intros l a i j HF Ha Hi Hj; [lia|]. cbn [up_less]. destruct (Z.leb_spec i j).
  - rewrite Less_ok by lia. cbn [bind]. destruct (lt (val l i) (val l a)) eqn:E.
    + destruct (IH l a (i + 1) j) as (i' & S & B & U & D); try lia. exists i'. split; [exact S|]. split; [lia|]. split; [|exact D].
      intros k Hk. destruct (Z.eq_dec k i) as [->|N]; [exact E|apply U; lia].
    + exists i. split; [reflexivity|]. split; [lia|]. split; [intros; lia|auto].
  - exists i. split; [reflexivity|]. split; [lia|]. split; intros; lia.
Qed.
Lemma down_notless_ok : forall fuel l a i j, (Z.to_nat (j + 1 - i) < fuel)%nat -> 0 <= a < len l -> 0 <= i <= j + 1 -> j < len l ->
  exists j', down_notless lt fuel l a i j = Ret j' /\ i - 1 <= j' <= j /\ (forall k, j' < k <= j -> le (val l a) (val l k)) /\
    (i <= j' -> lt (val l j') (val l a) = true).
Proof.
  induction fuel as [|fuel IH]; intros l a i j HF Ha Hi Hj; [lia|]. cbn [down_notless]. destruct (Z.leb_spec i j).
  - rewrite Less_ok by lia. cbn [bind]. destruct (lt (val l j) (val l a)) eqn:E; cbn [negb].
    + exists j. split; [reflexivity|]. split; [lia|]. split; [intros; lia|auto].
    + destruct (IH l a i (j - 1)) as (j' & S & B & U & D); try lia. exists j'. split; [exact S|]. split; [lia|]. split; [|exact D].
      intros k Hk. destruct (Z.eq_dec k j) as [->|N]; [exact E|apply U; lia].
  - exists j. split; [reflexivity|]. split; [lia|]. split; intros; lia.
Qed.
Lemma part_loop_ok : forall fuel l a b i j, (Z.to_nat (j + 1 - i) < fuel)%nat -> 0 <= a -> a < i -> i <= j + 1 -> j < b -> b <= len l ->
  (forall k, a < k < i -> lt (val l k) (val l a) = true) -> (forall k, j < k < b -> le (val l a) (val l k)) ->
  exists l' j', part_loop lt fuel l a i j = Ret (l', j') /\ R (a + 1) b l l' /\ a <= j' < b /\
    (forall k, a < k <= j' -> lt (val l' k) (val l' a) = true) /\ (forall k, j' < k < b -> le (val l' a) (val l' k)).
Proof.
  induction fuel as [|fuel IH]; intros l a b i j HF Ha Hai Hij Hjb Hb HL HG; [lia|]. cbn [part_loop].
  destruct (up_less_ok (S (Z.to_nat (j + 1 - i))) l a i j) as (i1 & S1 & B1 & U1 & D1); try lia. rewrite S1. cbn [bind].
  destruct (down_notless_ok (S (Z.to_nat (j + 1 - i1))) l a i1 j) as (j1 & S2 & B2 & U2 & D2); try lia. rewrite S2. cbn [bind].
  assert (HL' : forall k, a < k < i1 -> lt (val l k) (val l a) = true) by (intros k Hk; destruct (Z_lt_dec k i); [apply HL|apply U1]; lia).
  assert (HG' : forall k, j1 < k < b -> le (val l a) (val l k)) by (intros k Hk; destruct (Z_lt_dec j k); [apply HG|apply U2]; lia).
  destruct (Z.gtb_spec i1 j1).
  - exists l, j1. split; [reflexivity|]. split; [apply R_refl|]. split; [lia|]. split; [|exact HG']. intros k Hk. apply HL'. lia.
  - assert (i1 <> j1). { intros ->. specialize (D1 ltac:(lia)). specialize (D2 ltac:(lia)). congruence. }
    destruct (Swap_ok (a + 1) b l i1 j1) as (l1 & S3 & R1 & V1); try lia. rewrite S3. cbn [bind].
    assert (Va : val l1 a = val l a) by (rewrite V1 by lia; dz; reflexivity).
    destruct (IH l1 a b (i1 + 1) (j1 - 1)) as (l' & j' & S4 & R2 & B4 & U4 & D4); try lia.
    { rewrite (R_len _ _ _ _ R1). lia. }
    { intros k Hk. rewrite Va, V1 by lia. dz; [apply D2; lia|apply HL'; lia]. }
    { intros k Hk. rewrite Va, V1 by lia. dz; [apply D1; lia|apply HG'; lia]. }
    exists l', j'. split; [exact S4|]. split; [eapply R_trans; eassumption|]. auto.
Qed.
Lemma part_end a b l j : 0 <= a -> a <= j < b -> b <= len l -> (forall k, a < k <= j -> lt (val l k) (val l a) = true) -> (forall k, j < k < b -> le (val l a) (val l k)) ->
  exists l', Swap l j a = Ret l' /\ R a b l l' /\ (forall k, a <= k < j -> le (val l' k) (val l' j)) /\ (forall k, j < k < b -> le (val l' j) (val l' k)).
Proof.
  intros Ha Hj Hb HL HG. destruct (Swap_ok a b l j a) as (l' & S & RR & V); try lia. exists l'. split; [exact S|]. split; [exact RR|]. split.
  - intros k Hk. rewrite !V by lia. dz; apply lt_le, HL; lia.
  - intros k Hk. rewrite !V by lia. dz; apply HG; lia.
Qed.
Lemma partition_ok a b l pivot : 0 <= a -> a <= pivot < b -> b <= len l -> exists l' mid flag, partition lt l a b pivot = Ret (l', mid, flag) /\
  R a b l l' /\ a <= mid < b /\ (forall k, a <= k < mid -> le (val l' k) (val l' mid)) /\ (forall k, mid < k < b -> le (val l' mid) (val l' k)).
Proof.
  intros Ha Hp Hb. unfold partition. cbv zeta. destruct (Swap_ok a b l a pivot) as (l1 & S1 & R1 & V1); try lia. rewrite S1. cbn [bind].
  assert (L1 : len l1 = len l) by (rewrite (R_len _ _ _ _ R1); reflexivity).
  destruct (up_less_ok (S (Z.to_nat (b - 1 + 1 - (a + 1)))) l1 a (a + 1) (b - 1)) as (i1 & S2 & B2 & U2 & D2); try lia. rewrite S2. cbn [bind].
  destruct (down_notless_ok (S (Z.to_nat (b - 1 + 1 - i1))) l1 a i1 (b - 1)) as (j1 & S3 & B3 & U3 & D3); try lia. rewrite S3. cbn [bind].
  destruct (Z.gtb_spec i1 j1).
  - destruct (part_end a b l1 j1) as (l2 & S4 & R4 & X & Y); try lia.
    { intros k Hk; apply U2; lia. } { intros k Hk; apply U3; lia. }
    rewrite S4. cbn [bind]. exists l2, j1, true. split; [reflexivity|]. split; [eapply R_trans; eassumption|]. split; [lia|]. auto.
  - assert (i1 <> j1). { intros ->. specialize (D2 ltac:(lia)). specialize (D3 ltac:(lia)). congruence. }
    destruct (Swap_ok (a + 1) b l1 i1 j1) as (l2 & S4 & R4 & V4); try lia. rewrite S4. cbn [bind].
    assert (L2 : len l2 = len l1) by (rewrite (R_len _ _ _ _ R4); reflexivity).
    assert (Va : val l2 a = val l1 a) by (rewrite V4 by lia; dz; reflexivity).
    destruct (part_loop_ok (S (Z.to_nat (j1 + 1 - i1))) l2 a b (i1 + 1) (j1 - 1)) as (l3 & j3 & S5 & R5 & B5 & U5 & D5); try lia.
    { intros k Hk. rewrite Va, V4 by lia. dz; [apply D3; lia|apply U2; lia]. }
    { intros k Hk. rewrite Va, V4 by lia. dz; [apply D2; lia|apply U3; lia]. }
    rewrite S5. cbn [bind]. assert (L3 : len l3 = len l2) by (rewrite (R_len _ _ _ _ R5); reflexivity).
    destruct (part_end a b l3 j3) as (l4 & S6 & R6 & X & Y); try lia; auto. rewrite S6. cbn [bind].
    exists l4, j3, false. split; [reflexivity|]. split; [|split; [lia|auto]].
    eapply R_trans; [exact R1|]. eapply R_trans; [eapply R_wider; [| |exact R4]; lia|]. eapply R_trans; [eapply R_wider; [| |exact R5]; lia|exact R6].
Qed.
Lemma up_notgreater_ok : forall fuel l a i j, (Z.to_nat (j + 1 - i) < fuel)%nat -> 0 <= a < len l -> 0 <= i <= j + 1 -> j < len l ->
  exists i', up_notgreater lt fuel l a i j = Ret i' /\ i <= i' <= j + 1 /\ (forall k, i <= k < i' -> le (val l k) (val l a)) /\
    (i' <= j -> lt (val l a) (val l i') = true).
Proof.
  induction fuel as [|fuel IH]; intros l a i j HF Ha Hi Hj; [lia|]. cbn [up_notgreater]. destruct (Z.leb_spec i j).
  - rewrite Less_ok by lia. cbn [bind]. destruct (lt (val l a) (val l i)) eqn:E; cbn [negb].
    + exists i. split; [reflexivity|]. split; [lia|]. split; [intros; lia|auto].
    + destruct (IH l a (i + 1) j) as (i' & S & B & U & D); try lia. exists i'. split; [exact S|]. split; [lia|]. split; [|exact D].
      intros k Hk. destruct (Z.eq_dec k i) as [->|N]; [exact E|apply U; lia].
  - exists i. split; [reflexivity|]. split; [lia|]. split; intros; lia.
Qed.
Lemma down_greater_ok : forall fuel l a i j, (Z.to_nat (j + 1 - i) < fuel)%nat -> 0 <= a < len l -> 0 <= i <= j + 1 -> j < len l ->
  exists j', down_greater lt fuel l a i j = Ret j' /\ i - 1 <= j' <= j /\ (forall k, j' < k <= j -> le (val l a) (val l k)) /\
    (i <= j' -> le (val l j') (val l a)).
Proof.
  induction fuel as [|fuel IH]; intros l a i j HF Ha Hi Hj; [lia|]. cbn [down_greater]. destruct (Z.leb_spec i j).
  - rewrite Less_ok by lia. cbn [bind]. destruct (lt (val l a) (val l j)) eqn:E.
    + destruct (IH l a i (j - 1)) as (j' & S & B & U & D); try lia. exists j'. split; [exact S|]. split; [lia|]. split; [|exact D].
      intros k Hk. destruct (Z.eq_dec k j) as [->|N]; [apply lt_le, E|apply U; lia].
    + exists j. split; [reflexivity|]. split; [lia|]. split; [intros; lia|intros _; exact E].
  - exists j. split; [reflexivity|]. split; [lia|]. split; intros; lia.
Qed.
Lemma parteq_loop_ok : forall fuel l a b i j, (Z.to_nat (j + 1 - i) < fuel)%nat -> 0 <= a -> a < i -> i <= j + 1 -> j < b -> b <= len l ->
  (forall k, a < k < i -> le (val l k) (val l a)) -> (forall k, j < k < b -> le (val l a) (val l k)) ->
  exists l' i', parteq_loop lt fuel l a i j = Ret (l', i') /\ R (a + 1) b l l' /\ a < i' <= b /\
    (forall k, a < k < i' -> le (val l' k) (val l' a)) /\ (forall k, i' <= k < b -> le (val l' a) (val l' k)).
Proof.
  induction fuel as [|fuel IH]; intros l a b i j HF Ha Hai Hij Hjb Hb HL HG; [lia|]. cbn [parteq_loop].
  destruct (up_notgreater_ok (S (Z.to_nat (j + 1 - i))) l a i j) as (i1 & S1 & B1 & U1 & D1); try lia. rewrite S1. cbn [bind].
  destruct (down_greater_ok (S (Z.to_nat (j + 1 - i1))) l a i1 j) as (j1 & S2 & B2 & U2 & D2); try lia. rewrite S2. cbn [bind].
  assert (HL' : forall k, a < k < i1 -> le (val l k) (val l a)) by (intros k Hk; destruct (Z_lt_dec k i); [apply HL|apply U1]; lia).
  assert (HG' : forall k, j1 < k < b -> le (val l a) (val l k)) by (intros k Hk; destruct (Z_lt_dec j k); [apply HG|apply U2]; lia).
  destruct (Z.gtb_spec i1 j1).
  - exists l, i1. split; [reflexivity|]. split; [apply R_refl|]. split; [lia|]. split; [exact HL'|]. intros k Hk. apply HG'. lia.
  - assert (i1 <> j1). { intros ->. specialize (D1 ltac:(lia)). specialize (D2 ltac:(lia)). unfold le in D2. congruence. }
    destruct (Swap_ok (a + 1) b l i1 j1) as (l1 & S3 & R1 & V1); try lia. rewrite S3. cbn [bind].
    assert (Va : val l1 a = val l a) by (rewrite V1 by lia; dz; reflexivity).
    destruct (IH l1 a b (i1 + 1) (j1 - 1)) as (l' & j' & S4 & R2 & B4 & U4 & D4); try lia.
    { rewrite (R_len _ _ _ _ R1). lia. }
    { intros k Hk. rewrite Va, V1 by lia. dz; [apply D2; lia|apply HL'; lia]. }
    { intros k Hk. rewrite Va, V1 by lia. dz; [apply lt_le, D1; lia|apply HG'; lia]. }
    exists l', j'. split; [exact S4|]. split; [eapply R_trans; eassumption|]. auto.
Qed.
Lemma partitionEqual_ok a b l pivot : 0 <= a -> a <= pivot < b -> b <= len l -> (forall k, a <= k < b -> le (val l pivot) (val l k)) ->
  exists l' mid, partitionEqual lt l a b pivot = Ret (l', mid) /\ R a b l l' /\ a < mid <= b /\ sorted a mid l' /\
  (forall p q, a <= p < mid -> mid <= q < b -> le (val l' p) (val l' q)).
Proof.
  intros Ha Hp Hb HP. unfold partitionEqual. destruct (Swap_ok a b l a pivot) as (l1 & S1 & R1 & V1); try lia. rewrite S1. cbn [bind].
  assert (L1 : len l1 = len l) by (rewrite (R_len _ _ _ _ R1); reflexivity).
  assert (Va : val l1 a = val l pivot) by (rewrite V1 by lia; dz; reflexivity).
  destruct (parteq_loop_ok (S (Z.to_nat (b - a))) l1 a b (a + 1) (b - 1)) as (l2 & mid & S2 & R2 & B2 & U2 & D2); try lia.
  exists l2, mid. split; [exact S2|].
  assert (R12 : R a b l l2) by (eapply R_trans; [exact R1|]; eapply R_wider; [| |exact R2]; lia).
  assert (Va2 : val l2 a = val l pivot) by (rewrite (R_out _ _ _ _ a R2) by lia; exact Va).
  assert (HP2 : forall k, a <= k < b -> le (val l2 a) (val l2 k)).
  { rewrite Va2. apply (R_all a b l l2 (fun v => le (val l pivot) v)); auto; lia. }
  assert (U2' : forall k, a <= k < mid -> le (val l2 k) (val l2 a)).
  { intros k Hk. destruct (Z.eq_dec k a) as [->|N]; [apply le_refl|apply U2; lia]. }
  split; [exact R12|]. split; [lia|]. split.
  - intros p q Hpa Hpq Hq. apply (le_trans _ (val l2 a)); [apply U2'; lia|apply HP2; lia].
  - intros p q Hpa Hq. apply (le_trans _ (val l2 a)); [apply U2'; lia|apply D2; lia].
Qed.

(** ** The helpers that only rearrange *)
Lemma order2_ok l a b s : 0 <= a < len l -> 0 <= b < len l -> exists x y s', order2 lt l a b s = Ret (x, y, s') /\ ((x = a /\ y = b) \/ (x = b /\ y = a)).
Proof. intros Ha Hb. unfold order2. rewrite Less_ok by lia. cbn [bind]. destruct (lt _ _); do 3 eexists; split; eauto. Qed.
Lemma median_ok l a b c s : 0 <= a < len l -> 0 <= b < len l -> 0 <= c < len l -> exists x s', median lt l a b c s = Ret (x, s') /\ (x = a \/ x = b \/ x = c).
Proof.
  intros Ha Hb Hc. unfold median.
  destruct (order2_ok l a b s) as (x & y & s1 & E & H); try lia. rewrite E. cbn [bind]. clear E.
  destruct (order2_ok l y c s1) as (x' & y' & s2 & E & H'); try lia. rewrite E. cbn [bind]. clear E.
  destruct (order2_ok l x x' s2) as (x'' & y'' & s3 & E & H''); try lia. rewrite E. cbn [bind]. clear E.
  do 2 eexists. split; [reflexivity|]. lia.
Qed.
Lemma choosePivot_ok l a b : 0 <= a -> 12 < b - a -> b <= len l -> exists p h, choosePivot lt l a b = Ret (p, h) /\ a <= p < b.
Proof.
  intros Ha Hab Hb. unfold choosePivot. cbv zeta.
  pose proof (Z.quot_rem (b - a) 4 ltac:(lia)) as E. pose proof (Z.rem_bound_pos (b - a) 4 ltac:(lia) ltac:(lia)) as B.
  set (q := Z.quot (b - a) 4) in *. destruct (Z.geb_spec (b - a) 8); [|lia].
  assert (M : exists i j k s, (if b - a >=? 50 then
     let! (i, swaps) := median lt l (a + q * 1 - 1) (a + q * 1) (a + q * 1 + 1) 0 in
     let! (j, swaps) := median lt l (a + q * 2 - 1) (a + q * 2) (a + q * 2 + 1) swaps in
     let! (k, swaps) := median lt l (a + q * 3 - 1) (a + q * 3) (a + q * 3 + 1) swaps in Ret (i, j, k, swaps)
     else Ret (a + q * 1, a + q * 2, a + q * 3, 0)) = Ret (i, j, k, s) /\ a <= i < b /\ a <= j < b /\ a <= k < b).
  { destruct (Z.geb_spec (b - a) 50).
    - destruct (median_ok l (a + q * 1 - 1) (a + q * 1) (a + q * 1 + 1) 0) as (i & s1 & E1 & H1); try lia. rewrite E1. cbn [bind].
      destruct (median_ok l (a + q * 2 - 1) (a + q * 2) (a + q * 2 + 1) s1) as (j & s2 & E2 & H2); try lia. rewrite E2. cbn [bind].
      destruct (median_ok l (a + q * 3 - 1) (a + q * 3) (a + q * 3 + 1) s2) as (k & s3 & E3 & H3); try lia. rewrite E3. cbn [bind].
      exists i, j, k, s3. split; [reflexivity|]. lia.
    - do 4 eexists. split; [reflexivity|]. lia. }
  destruct M as (i & j & k & s & E1 & Hi & Hj & Hk). rewrite E1. cbn [bind].
  destruct (median_ok l i j k s) as (p & s' & E2 & H2); try lia. rewrite E2. cbn [bind]. do 2 eexists. split; [reflexivity|]. lia.
Qed.
Lemma bp_loop_ok : forall n l a b m idx i r, 0 <= a -> a < b -> b <= len l -> (exists e, 0 <= e /\ m = 2 ^ e) -> m <= 2 * (b - a) -> a <= idx - 1 + i -> idx - 1 + i + Z.of_nat n <= b ->
  exists l', bp_loop Next n l a (b - a) m idx i r = Ret l' /\ R a b l l'.
Proof.
  induction n as [|n IH]; intros l a b m idx i r Ha Hab Hb Hm Hm2 Hi Hi2; cbn [bp_loop].
  - exists l. split; [reflexivity|apply R_refl].
  - cbv zeta. destruct Hm as (e & He & Em).
    assert (B : 0 <= Z.land (Next r) (m - 1) < m).
    { subst m. rewrite Z.sub_1_r, <- Z.ones_equiv, Z.land_ones by lia. apply Z.mod_pos_bound. lia. }
    set (o := Z.land (Next r) (m - 1)) in *.
    destruct (Swap_ok a b l (idx - 1 + i) (a + (if o >=? b - a then o - (b - a) else o))) as (l1 & S1 & R1 & _); try lia.
    { destruct (Z.geb_spec o (b - a)); lia. }
    rewrite S1. cbn [bind]. destruct (IH l1 a b m idx (i + 1) (Next r)) as (l2 & S2 & R2); try lia.
    { rewrite (R_len _ _ _ _ R1). lia. } { exists e. auto. }
    exists l2. split; [exact S2|]. eapply R_trans; eassumption.
Qed.
Lemma breakPatterns_ok l a b : 0 <= a -> a <= b -> b <= len l -> exists l', breakPatterns Next l a b = Ret l' /\ R a b l l'.
Proof.
  intros Ha Hab Hb. unfold breakPatterns. cbv zeta. destruct (Z.geb_spec (b - a) 8).
  - pose proof (Z.quot_rem (b - a) 4 ltac:(lia)) as E. pose proof (Z.rem_bound_pos (b - a) 4 ltac:(lia) ltac:(lia)) as B.
    apply bp_loop_ok; try lia.
    + unfold nextPowerOfTwo. destruct (Z.eqb_spec (b - a) 0); [lia|]. exists (Z.log2 (b - a) + 1). pose proof (Z.log2_nonneg (b - a)). split; [lia|reflexivity].
    + unfold nextPowerOfTwo. destruct (Z.eqb_spec (b - a) 0); [lia|]. pose proof (Z.log2_nonneg (b - a)). rewrite Z.pow_add_r by lia.
      pose proof (Z.log2_spec (b - a) ltac:(lia)). lia.
  - exists l. split; [reflexivity|apply R_refl].
Qed.
Lemma rev_loop_ok : forall fuel l a b i j, (Z.to_nat (j - i) < fuel)%nat -> 0 <= a -> b <= len l -> a <= i -> j < b -> exists l', rev_loop fuel l i j = Ret l' /\ R a b l l'.
Proof.
  induction fuel as [|fuel IH]; intros l a b i j HF Ha Hb Hi Hj; [lia|]. cbn [rev_loop]. destruct (Z.ltb_spec i j).
  - destruct (Swap_ok a b l i j) as (l1 & S1 & R1 & _); try lia. rewrite S1. cbn [bind].
    destruct (IH l1 a b (i + 1) (j - 1)) as (l2 & S2 & R2); try lia. { rewrite (R_len _ _ _ _ R1). lia. }
    exists l2. split; [exact S2|]. eapply R_trans; eassumption.
  - exists l. split; [reflexivity|apply R_refl].
Qed.

(** ** The attempt on nearly sorted slices *)
(** In proofs; for bip44/coins.go:1152-1154. *)
Definition lower (a b : Z) (l : list A) : Prop := a = 0 \/ (forall k, a <= k < b -> le (val l (a - 1)) (val l k)).
Lemma lower_R a b a' b' l l' : 0 <= a -> a <= a' -> a' <= b' -> b' <= b -> b <= len l -> R a' b' l l' -> lower a b l -> lower a b l'.
Proof.
  intros Ha H1 H2 H3 H4 HR [L|L]; [left; exact L|]. destruct (Z.eq_dec a 0); [left; assumption|]. right. rewrite (R_out _ _ _ _ (a - 1) HR) by lia.
  apply (R_all' a' b' a b l l' (fun v => le (val l (a - 1)) v)); auto; lia.
Qed.
Lemma pis_skip_ok : forall fuel l a b i, (Z.to_nat (b - i) < fuel)%nat -> 0 <= a -> a < i -> i <= b -> b <= len l -> sorted a i l ->
  exists i', pis_skip lt fuel l b i = Ret i' /\ i <= i' <= b /\ sorted a i' l.
Proof.
  induction fuel as [|fuel IH]; intros l a b i HF Ha Hai Hib Hb H; [lia|]. cbn [pis_skip]. destruct (Z.ltb_spec i b).
  - rewrite Less_ok by lia. cbn [bind]. destruct (lt (val l i) (val l (i - 1))) eqn:E; cbn [negb].
    + exists i. split; [reflexivity|]. split; [lia|exact H].
    + destruct (IH l a b (i + 1)) as (i' & S & B & O); try lia.
      { intros p q Hp Hpq Hq. destruct (Z.eq_dec q i) as [->|N]; [|apply H; lia].
        destruct (Z.eq_dec p (i - 1)) as [->|N]; [exact E|]. apply (le_trans _ (val l (i - 1))); [apply H; lia|exact E]. }
      exists i'. split; [exact S|]. split; [lia|exact O].
  - exists i. split; [reflexivity|]. split; [lia|exact H].
Qed.
Lemma pis_left_ok : forall fuel a i l j, (Z.to_nat j < fuel)%nat -> 0 <= a -> a <= j -> j <= i -> i < len l -> lower a (i + 1) l ->
  (forall p q, a <= p -> p < q -> q <= i -> q <> j -> le (val l p) (val l q)) -> done a (i + 1) l (pis_left lt fuel l j).
Proof.
  induction fuel as [|fuel IH]; intros a i l j HF Ha Haj Hji Hi HLo H; [lia|]. cbn [pis_left].
  destruct (Z.geb_spec j 1).
  - rewrite Less_ok by lia. cbn [bind]. destruct (lt (val l j) (val l (j - 1))) eqn:E; cbn [negb].
    + assert (a < j). { destruct (Z.eq_dec a j) as [->|]; [|lia]. destruct HLo as [->|L]; [lia|]. specialize (L j ltac:(lia)). unfold le in L. congruence. }
      destruct (Swap_ok a (i + 1) l j (j - 1)) as (l1 & S1 & R1 & V1); try lia. rewrite S1. cbn [bind].
      destruct (IH a i l1 (j - 1)) as (l2 & S2 & R2 & O2); try lia.
      * rewrite (R_len _ _ _ _ R1). lia.
      * apply (lower_R a (i + 1) a (i + 1) l l1); auto; lia.
      * intros p q Hp Hpq Hq Hn. rewrite !V1 by lia. dz.
        -- apply lt_le, E.
        -- apply H; lia.
        -- apply H; lia.
        -- apply H; lia.
        -- apply H; lia.
      * exists l2. split; [exact S2|]. split; [eapply R_trans; eassumption|exact O2].
    + exists l. split; [reflexivity|]. split; [apply R_refl|]. intros p q Hp Hpq Hq.
      destruct (Z.eq_dec q j) as [->|N]; [|apply H; lia].
      destruct (Z.eq_dec p (j - 1)) as [->|N]; [exact E|]. apply (le_trans _ (val l (j - 1))); [apply H; lia|exact E].
  - exists l. split; [reflexivity|]. split; [apply R_refl|]. intros p q Hp Hpq Hq. apply H; lia.
Qed.
Lemma pis_right_ok : forall fuel l a b j, (Z.to_nat (b - j) < fuel)%nat -> 0 <= a -> a < j -> b <= len l -> exists l', pis_right lt fuel l b j = Ret l' /\ R a b l l'.
Proof.
  induction fuel as [|fuel IH]; intros l a b j HF Ha Hj Hb; [lia|]. cbn [pis_right]. destruct (Z.ltb_spec j b).
  - rewrite Less_ok by lia. cbn [bind]. destruct (lt (val l j) (val l (j - 1))); cbn [negb]; [|exists l; split; [reflexivity|apply R_refl]].
    destruct (Swap_ok a b l j (j - 1)) as (l1 & S1 & R1 & _); try lia. rewrite S1. cbn [bind].
    destruct (IH l1 a b (j + 1)) as (l2 & S2 & R2); try lia. { rewrite (R_len _ _ _ _ R1). lia. }
    exists l2. split; [exact S2|]. eapply R_trans; eassumption.
  - exists l. split; [reflexivity|apply R_refl].
Qed.
Lemma pis_loop_ok : forall steps l a b i, 0 <= a -> a < i -> i <= b -> b <= len l -> lower a b l -> sorted a i l ->
  exists l' c, pis_loop lt steps l a b i = Ret (l', c) /\ R a b l l' /\ (c = true -> sorted a b l').
Proof.
  induction steps as [|steps IH]; intros l a b i Ha Hai Hib Hb HLo H; cbn [pis_loop].
  - exists l, false. split; [reflexivity|]. split; [apply R_refl|discriminate].
  - destruct (pis_skip_ok (S (Z.to_nat (b - i))) l a b i) as (i1 & S1 & B1 & O1); try lia; auto. rewrite S1. cbn [bind].
    destruct (Z.eqb_spec i1 b) as [->|N]; [exists l, true; split; [reflexivity|]; split; [apply R_refl|auto]|].
    destruct (Z.ltb_spec (b - a) 50); [exists l, false; split; [reflexivity|]; split; [apply R_refl|discriminate]|].
    destruct (Swap_ok a b l i1 (i1 - 1)) as (l1 & S2 & R2 & V2); try lia. rewrite S2. cbn [bind].
    assert (L1 : len l1 = len l) by (rewrite (R_len _ _ _ _ R2); reflexivity).
    assert (M : exists l2, (if i1 - a >=? 2 then pis_left lt (S (Z.to_nat i1)) l1 (i1 - 1) else Ret l1) = Ret l2 /\ R a i1 l1 l2 /\ sorted a i1 l2).
    { destruct (Z.geb_spec (i1 - a) 2).
      - destruct (pis_left_ok (S (Z.to_nat i1)) a (i1 - 1) l1 (i1 - 1)) as (l2 & X & Y & Z0); try lia.
        + assert (HL1 : lower a b l1) by (apply (lower_R a b a b l l1); auto; lia).
          destruct HL1 as [?|L]; [left; assumption|right; intros; apply L; lia].
        + intros p q Hp Hpq Hq Hn. rewrite !V2 by lia. dz. apply O1; lia.
        + replace (i1 - 1 + 1) with i1 in * by lia. exists l2. auto.
      - exists l1. split; [reflexivity|]. split; [apply R_refl|]. intros p q Hp Hpq Hq. lia. }
    destruct M as (l2 & S3 & R3 & O3). rewrite S3. cbn [bind]. assert (L2 : len l2 = len l1) by (rewrite (R_len _ _ _ _ R3); reflexivity).
    assert (M : exists l3, (if b - i1 >=? 2 then pis_right lt (S (Z.to_nat (b - i1))) l2 b (i1 + 1) else Ret l2) = Ret l3 /\ R i1 b l2 l3).
    { destruct (Z.geb_spec (b - i1) 2); [apply pis_right_ok; lia|]. exists l2. split; [reflexivity|apply R_refl]. }
    destruct M as (l3 & S4 & R4). rewrite S4. cbn [bind]. assert (L3 : len l3 = len l2) by (rewrite (R_len _ _ _ _ R4); reflexivity).
    assert (RR : R a b l l3).
    { eapply R_trans; [exact R2|]. eapply R_trans; [eapply R_wider; [| |exact R3]; lia|]. eapply R_wider; [| |exact R4]; lia. }
    destruct (IH l3 a b i1) as (l4 & c & S5 & R5 & O5); try lia.
    { apply (lower_R a b a b l l3); auto; lia. }
    { intros p q Hp Hpq Hq. rewrite !(R_out _ _ _ _ _ R4) by lia. apply O3; lia. }
    exists l4, c. split; [exact S5|]. split; [eapply R_trans; eassumption|exact O5].
Qed.

(** ** The whole *)
Lemma pdq_ok : forall fuel l a b limit wb wp, (Z.to_nat (b - a) < fuel)%nat -> 0 <= a -> a <= b -> b <= len l -> lower a b l ->
  done a b l (pdq_loop lt Next fuel l a b limit wb wp).
Proof.
  induction fuel as [|fuel IH]; intros l a b limit wb wp HF Ha Hab Hb HLo; [lia|]. cbn [pdq_loop]. cbv zeta.
  destruct (Z.leb_spec (b - a) 12); [apply insertionSort_ok; lia|].
  destruct (limit =? 0); [apply heapSort_ok; lia|].
  assert (M : exists l1, (if negb wb then breakPatterns Next l a b else Ret l) = Ret l1 /\ R a b l l1).
  { destruct wb; cbn [negb]; [exists l; split; [reflexivity|apply R_refl]|apply breakPatterns_ok; lia]. }
  destruct M as (l1 & S1 & R1). rewrite S1. cbn [bind]. assert (L1 : len l1 = len l) by (rewrite (R_len _ _ _ _ R1); reflexivity).
  set (limit' := if negb wb then limit - 1 else limit). clearbody limit'.
  destruct (choosePivot_ok l1 a b) as (p & h & S2 & B2); try lia. rewrite S2. cbn [bind].
  assert (M : exists l2, match h with decreasingHint => reverseRange l1 a b | _ => Ret l1 end = Ret l2 /\ R a b l1 l2).
  { destruct h; try (exists l1; split; [reflexivity|apply R_refl]). apply rev_loop_ok; lia. }
  destruct M as (l2 & S3 & R3). rewrite S3. cbn [bind]. assert (L2 : len l2 = len l1) by (rewrite (R_len _ _ _ _ R3); reflexivity).
  set (pv := match h with decreasingHint => b - 1 - (p - a) | _ => p end).
  assert (Bp : a <= pv < b) by (unfold pv; destruct h; lia). clearbody pv.
  set (inc := match h with unknownHint => false | _ => true end). clearbody inc. clear h S2 S3.
  assert (RR2 : R a b l l2) by (eapply R_trans; eassumption).
  assert (HLo2 : lower a b l2) by (apply (lower_R a b a b l l2); auto; lia).
  assert (M : exists l3 c, (if wb && wp && inc then partialInsertionSort lt l2 a b else Ret (l2, false)) = Ret (l3, c) /\ R a b l2 l3 /\ (c = true -> sorted a b l3)).
  { destruct (wb && wp && inc).
    - apply pis_loop_ok; try lia; auto. intros i j Hi Hij Hj. lia.
    - exists l2, false. split; [reflexivity|]. split; [apply R_refl|discriminate]. }
  destruct M as (l3 & c & S4 & R4 & O4). rewrite S4. cbn [bind]. assert (L3 : len l3 = len l2) by (rewrite (R_len _ _ _ _ R4); reflexivity).
  assert (RR3 : R a b l l3) by (eapply R_trans; eassumption).
  destruct c; [exists l3; split; [reflexivity|auto]|]. clear O4.
  assert (HLo3 : lower a b l3) by (apply (lower_R a b a b l l3); auto; lia).
  clear S1 S4 R1 R3 R4 RR2 HLo2. clear l1 l2 L1 L2 L3. assert (L3 : len l3 = len l) by (rewrite (R_len _ _ _ _ RR3); reflexivity).
  assert (M : exists c, and_then (a >? 0) (let! c := Less l3 (a - 1) pv in Ret (negb c)) = Ret c /\ (c = true -> a > 0 /\ le (val l3 pv) (val l3 (a - 1)))).
  { unfold and_then. destruct (Z.gtb_spec a 0).
    - rewrite Less_ok by lia. cbn [bind]. eexists. split; [reflexivity|]. intros E. split; [lia|]. unfold le. destruct (lt _ _); [discriminate|reflexivity].
    - exists false. split; [reflexivity|discriminate]. }
  destruct M as (c & S5 & C5). rewrite S5. cbn [bind]. destruct c.
  - destruct (C5 eq_refl) as (Ha0 & Hle). destruct HLo3 as [?|HLo3]; [lia|].
    destruct (partitionEqual_ok a b l3 pv) as (l4 & mid & S6 & R6 & B6 & O6 & X6); try lia.
    { intros k Hk. apply (le_trans _ (val l3 (a - 1))); [exact Hle|apply HLo3; lia]. }
    rewrite S6. cbn [bind]. assert (L4 : len l4 = len l3) by (rewrite (R_len _ _ _ _ R6); reflexivity).
    destruct (IH l4 mid b limit' wb wp) as (l5 & S7 & R7 & O7); try lia.
    { right. intros k Hk. apply X6; lia. }
    exists l5. split; [exact S7|]. split.
    + eapply R_trans; [exact RR3|]. eapply R_trans; [exact R6|]. eapply R_wider; [| |exact R7]; lia.
    + intros i j Hi Hij Hj. destruct (Z_lt_dec j mid); [|destruct (Z_lt_dec i mid)].
      * rewrite !(R_out _ _ _ _ _ R7) by lia. apply O6; lia.
      * rewrite (R_out _ _ _ _ i R7) by lia. apply (R_all mid b l4 l5 (fun v => le (val l4 i) v)); auto; try lia.
      * apply O7; lia.
  - destruct (partition_ok a b l3 pv) as (l4 & mid & flag & S6 & R6 & B6 & X6 & Y6); try lia.
    rewrite S6. cbn [bind]. assert (L4 : len l4 = len l3) by (rewrite (R_len _ _ _ _ R6); reflexivity).
    assert (HLo4 : lower a b l4) by (apply (lower_R a b a b l3 l4); auto; lia).
    assert (FIN : forall l6, R a b l4 l6 -> sorted a mid l6 -> sorted (mid + 1) b l6 -> (forall k, a <= k < mid -> le (val l6 k) (val l6 mid)) ->
      (forall k, mid < k < b -> le (val l6 mid) (val l6 k)) -> R a b l l6 /\ sorted a b l6).
    { intros l6 R7 SA SB XA XB. split; [eapply R_trans; [exact RR3|]; eapply R_trans; eassumption|].
      intros i j Hi Hij Hj. destruct (Z_lt_dec j mid); [apply SA; lia|]. destruct (Z_lt_dec mid i); [apply SB; lia|].
      destruct (Z.eq_dec i mid) as [->|]; [apply XB; lia|]. destruct (Z.eq_dec j mid) as [->|]; [apply XA; lia|].
      apply (le_trans _ (val l6 mid)); [apply XA; lia|apply XB; lia]. }
    destruct (Z.ltb_spec (mid - a) (b - mid)).
    + destruct (IH l4 a mid limit' true true) as (l5 & S7 & R7 & O7); try lia.
      { destruct HLo4 as [?|L]; [left; assumption|right; intros; apply L; lia]. }
      rewrite S7. cbn [bind]. assert (L5 : len l5 = len l4) by (rewrite (R_len _ _ _ _ R7); reflexivity).
      destruct (IH l5 (mid + 1) b limit' (mid - a >=? Z.quot (b - a) 8) flag) as (l6 & S8 & R8 & O8); try lia.
      { right. intros k Hk. replace (mid + 1 - 1) with mid by lia. rewrite !(R_out _ _ _ _ _ R7) by lia. apply Y6; lia. }
      exists l6. split; [exact S8|]. apply FIN.
      * eapply R_trans; [eapply R_wider; [| |exact R7]; lia|]. eapply R_wider; [| |exact R8]; lia.
      * intros i j Hi Hij Hj. rewrite !(R_out _ _ _ _ _ R8) by lia. apply O7; lia.
      * exact O8.
      * intros k Hk. rewrite !(R_out _ _ _ _ _ R8) by lia. rewrite (R_out _ _ _ _ mid R7) by lia.
        revert k Hk. apply (R_all a mid l4 l5 (fun v => le v (val l4 mid))); auto; lia.
      * intros k Hk. rewrite (R_out _ _ _ _ mid R8), (R_out _ _ _ _ mid R7) by lia.
        apply (R_all (mid + 1) b l5 l6 (fun v => le (val l4 mid) v)); auto; try lia. intros q Hq. rewrite (R_out _ _ _ _ q R7) by lia. apply Y6; lia.
    + destruct (IH l4 (mid + 1) b limit' true true) as (l5 & S7 & R7 & O7); try lia.
      { right. intros k Hk. replace (mid + 1 - 1) with mid by lia. apply Y6; lia. }
      rewrite S7. cbn [bind]. assert (L5 : len l5 = len l4) by (rewrite (R_len _ _ _ _ R7); reflexivity).
      destruct (IH l5 a mid limit' (b - mid >=? Z.quot (b - a) 8) flag) as (l6 & S8 & R8 & O8); try lia.
      { assert (HLo5 : lower a b l5) by (apply (lower_R a b (mid + 1) b l4 l5); auto; lia).
        destruct HLo5 as [?|L]; [left; assumption|right; intros; apply L; lia]. }
      exists l6. split; [exact S8|]. apply FIN.
      * eapply R_trans; [eapply R_wider; [| |exact R7]; lia|]. eapply R_wider; [| |exact R8]; lia.
      * exact O8.
      * intros i j Hi Hij Hj. rewrite !(R_out _ _ _ _ _ R8) by lia. apply O7; lia.
      * intros k Hk. rewrite (R_out _ _ _ _ mid R8), (R_out _ _ _ _ mid R7) by lia.
        apply (R_all a mid l5 l6 (fun v => le v (val l4 mid))); auto; try lia. intros q Hq. rewrite (R_out _ _ _ _ q R7) by lia. apply X6; lia.
      * intros k Hk. rewrite !(R_out _ _ _ _ _ R8) by lia. rewrite (R_out _ _ _ _ mid R7) by lia.
        apply (R_all (mid + 1) b l4 l5 (fun v => le (val l4 mid) v)); auto; try lia. intros q Hq. apply Y6; lia.
Qed.
End Facts.

(** ** sort.Slice *)
Lemma nth_StronglySorted {A} (P : A -> A -> Prop) (d : A) (l : list A) :
  (forall i j, (i < j)%nat -> (j < length l)%nat -> P (nth i l d) (nth j l d)) -> StronglySorted P l.
Proof.
  induction l as [|x l IH]; intros H; [constructor|]. constructor.
  - apply IH. intros i j Hij Hj. apply (H (S i) (S j)); cbn; lia.
  - apply Forall_forall. intros y Hy. apply (In_nth _ _ d) in Hy. destruct Hy as (n & Hn & <-). apply (H O (S n)); cbn; lia.
Qed.
Lemma SortSlice_ok {A} (lt : A -> A -> bool) Next (l : list A) :
  (forall x y z, lt y x = false -> lt z y = false -> lt z x = false) -> (forall x y, lt x y = true -> lt y x = false) ->
  exists l', SortSlice lt Next l = Ret l' /\ Permutation l l' /\ StronglySorted (fun a b => lt b a = false) l'.
Proof.
  intros HT HA. destruct l as [|d r]; [exists []; split; [reflexivity|]; split; [constructor|constructor]|].
  set (l := d :: r). unfold SortSlice. cbv zeta. set (limit := if _ =? 0 then _ else _). clearbody limit.
  destruct (pdq_ok lt Next d HT HA (S (length l)) l 0 (Z.of_nat (length l)) limit true true) as (l' & S & (L & _ & P) & O); try lia.
  { left. reflexivity. }
  exists l'. split; [exact S|]. split; [exact P|]. apply (nth_StronglySorted _ d). intros i j Hij Hj.
  specialize (O (Z.of_nat i) (Z.of_nat j)). rewrite !Nat2Z.id in O. apply O; lia.
Qed.
