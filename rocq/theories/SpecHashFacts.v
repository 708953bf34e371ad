(** SpecHashFacts.v - the executable hashes of Hash.v are the functions the standards define. *)
From Coq Require Import ZifyBool ZifyNat Znumtheory.
From Verif Require Import Base BaseFacts Prims Hash HashFacts GoHash GoHashFacts SpecHash.

(** ** The first primes and their roots *)
(** For bip39/bip39.go:294, bip32/utils.go:32, bip32/bip32.go:81. *)
Definition isp (n : Z) : bool := forallb (fun d => negb (n mod d =? 0)) (map Z.of_nat (seq 2 (Z.to_nat n - 2))).
Lemma isp_prime n : 1 < n -> (isp n = true <-> prime n).
Proof.
  intros Hn. unfold isp. rewrite forallb_forall, <- prime_alt. split.
  - intros H. split; [exact Hn|]. intros d Hd Hdiv.
    assert (E : negb (n mod d =? 0) = true).
    { apply H. apply in_map_iff. exists (Z.to_nat d). split; [lia|]. apply in_seq. lia. }
    apply Zdivide_mod in Hdiv. rewrite Hdiv in E. discriminate E.
  - intros [_ H] d Hd. apply in_map_iff in Hd. destruct Hd as (k & <- & Hk). apply in_seq in Hk.
    apply Bool.negb_true_iff. apply Z.eqb_neq. intros E. apply (H (Z.of_nat k)); [lia|].
    apply Zmod_divide; [lia|exact E].
Qed.
(** For bip39/bip39.go:294, bip32/utils.go:32, bip32/bip32.go:81. *)
Definition primes80 : list Z :=
  [2; 3; 5; 7; 11; 13; 17; 19; 23; 29; 31; 37; 41; 43; 47; 53; 59; 61; 67; 71; 73; 79; 83; 89; 97; 101; 103; 107; 109;
   113; 127; 131; 137; 139; 149; 151; 157; 163; 167; 173; 179; 181; 191; 193; 197; 199; 211; 223; 227; 229; 233; 239;
   241; 251; 257; 263; 269; 271; 277; 281; 283; 293; 307; 311; 313; 317; 331; 337; 347; 349; 353; 359; 367; 373; 379;
   383; 389; 397; 401; 409].
Lemma primes80_filter : filter isp (map Z.of_nat (seq 2 408)) = primes80.
Proof. vm_compute. reflexivity. Qed.
Lemma primes80_iff q : q < 410 -> (In q primes80 <-> prime q).
Proof.
  intros Hq. rewrite <- primes80_filter, filter_In. split.
  - intros [Hi E]. apply in_map_iff in Hi. destruct Hi as (k & <- & Hk). apply in_seq in Hk. apply isp_prime; [lia|exact E].
  - intros Hp. pose proof (prime_ge_2 q Hp). split; [|apply isp_prime; [lia|exact Hp]].
    apply in_map_iff. exists (Z.to_nat q). split; [lia|]. apply in_seq. lia.
Qed.
(** For bip39/bip39.go:294, bip32/utils.go:32, bip32/bip32.go:81. *)
Fixpoint increasing (l : list Z) : bool :=
  match l with
  | x :: (y :: _) as r => (x <? y) && increasing r
  | _ => true
  end.
Lemma increasing_all x l : increasing (x :: l) = true -> increasing l = true /\ forall y, In y l -> x < y.
Proof.
  revert x; induction l as [|z l IH]; intros x H; [split; [reflexivity|contradiction]|].
  cbn [increasing] in H. apply Bool.andb_true_iff in H. destruct H as [H1 H2]. split; [exact H2|].
  destruct (IH z H2) as [_ G]. intros y [<-|Hy]; [lia|]. specialize (G y Hy). lia.
Qed.
Lemma increasing_firstn l : increasing l = true -> forall t p, nth_error l t = Some p ->
  NoDup (firstn t l) /\ length (firstn t l) = t /\ forall q, In q (firstn t l) <-> In q l /\ q < p.
Proof.
  induction l as [|x l IH]; intros Hi t p Hp; [destruct t; discriminate Hp|].
  destruct (increasing_all x l Hi) as [Hi' Hx]. destruct t as [|t].
  - injection Hp as <-. cbn [firstn length]. split; [constructor|]. split; [reflexivity|]. intros q. split; [contradiction|].
    intros [[<-|Hq] Hl]; [lia|]. specialize (Hx q Hq). lia.
  - cbn [nth_error] in Hp. destruct (IH Hi' t p Hp) as (N & L & I). cbn [firstn length In].
    assert (Hxp : x < p) by (apply Hx; apply nth_error_In with t; exact Hp).
    split; [|split; [rewrite L; reflexivity|]].
    + constructor; [|exact N]. intros Hxi. apply I in Hxi. destruct Hxi as [Hxi _]. specialize (Hx x Hxi). lia.
    + intros q. rewrite I. split; [intros [<-|[Hq Hl]]; auto|]. intros [[<-|Hq] Hl]; auto.
Qed.
Lemma primes80_nth t p : nth_error primes80 t = Some p -> nth_prime t p.
Proof.
  intros Hp. destruct (increasing_firstn primes80 eq_refl t p Hp) as (N & L & I).
  assert (Hlt : p < 410).
  { assert (F : forallb (fun x => x <? 410) primes80 = true) by reflexivity. rewrite forallb_forall in F.
    specialize (F p (nth_error_In _ _ Hp)). lia. }
  split; [apply primes80_iff; [exact Hlt|apply nth_error_In with t; exact Hp]|].
  exists (firstn t primes80). split; [exact N|]. split; [exact L|]. intros q. rewrite I. split.
  - intros [Hq Hl]. split; [apply primes80_iff; [lia|exact Hq]|exact Hl].
  - intros [Hq Hl]. split; [apply primes80_iff; [lia|exact Hq]|exact Hl].
Qed.
Lemma nth_prime_inj t p q : nth_prime t p -> nth_prime t q -> p = q.
Proof.
  assert (G : forall p q, nth_prime t p -> nth_prime t q -> p < q -> False).
  { clear. intros p q [Pp (l & Nl & Ll & Il)] [Pq (l' & Nl' & Ll' & Il')] H.
    assert (Hn : NoDup (p :: l)) by (constructor; [|exact Nl]; intros Hi; apply Il in Hi; lia).
    assert (Hinc : incl (p :: l) l').
    { intros x [<-|Hx]; apply Il'; [split; assumption|]. apply Il in Hx. split; [apply Hx|]. destruct Hx. lia. }
    pose proof (NoDup_incl_length Hn Hinc) as Hle. cbn [length] in Hle. lia. }
  intros Hp Hq. destruct (Z.lt_trichotomy p q) as [H|[H|H]]; [exfalso; eauto|exact H|exfalso; eauto].
Qed.
Lemma whole_root_inj d n c c' : 0 < d -> whole_root d n c -> whole_root d n c' -> c = c'.
Proof.
  intros Hd [H0 [H1 H2]] [H0' [H1' H2']].
  destruct (Z.lt_trichotomy c c') as [H|[H|H]]; [exfalso| exact H |exfalso].
  - assert ((c + 1) ^ d <= c' ^ d) by (apply Z.pow_le_mono_l; lia). lia.
  - assert ((c' + 1) ^ d <= c ^ d) by (apply Z.pow_le_mono_l; lia). lia.
Qed.
Lemma frac_root_inj d p w k k' : 0 < d -> frac_root d p w k -> frac_root d p w k' -> k = k'.
Proof. intros Hd (c & H & ->) (c' & H' & ->). rewrite (whole_root_inj d _ c c' Hd H H'). reflexivity. Qed.
(** For bip39/bip39.go:294, bip32/utils.go:32, bip32/bip32.go:81. *)
Definition root_ok (d w p k : Z) : bool :=
  (0 <=? k) && (k <? 2 ^ w) &&
  existsb (fun i => let c := i * 2 ^ w + k in (c ^ d <=? p * 2 ^ (d * w)) && (p * 2 ^ (d * w) <? (c + 1) ^ d)) [0; 1; 2; 3; 4; 5; 6; 7].
Lemma root_ok_frac d w p k : 0 < w -> root_ok d w p k = true -> frac_root d p w k.
Proof.
  intros Hw H. unfold root_ok in H. apply Bool.andb_true_iff in H. destruct H as [Hk H].
  apply existsb_exists in H. destruct H as (i & Hi & H). cbv zeta in H. exists (i * 2 ^ w + k). split.
  - split; [|lia]. assert (0 <= i) by (cbn in Hi; lia). pose proof (Z.pow_pos_nonneg 2 w). nia.
  - rewrite Z.add_comm, Z.mod_add by (pose proof (Z.pow_pos_nonneg 2 w); lia). rewrite Z.mod_small; lia.
Qed.
(** a table of constants is the fractional roots of the first primes.
    For bip39/bip39.go:294, bip32/utils.go:32, bip32/bip32.go:81. *)
Definition table_ok (d w : Z) (tab : list Z) : bool :=
  forallb (fun p => root_ok d w (fst p) (snd p)) (combine primes80 tab).
Lemma table_const d w tab : 0 < d -> 0 < w -> table_ok d w tab = true -> (length tab <= 80)%nat ->
  forall t, (t < length tab)%nat ->
  (exists p, nth_prime t p /\ frac_root d p w (nth t tab 0)) /\
  (forall k, (exists p, nth_prime t p /\ frac_root d p w k) -> k = nth t tab 0).
Proof.
  intros Hd Hw Ht Hlen t Hlt.
  assert (Hp : exists p, nth_error primes80 t = Some p).
  { destruct (nth_error primes80 t) eqn:E; [eauto|]. apply nth_error_None in E. cbn in E. lia. }
  destruct Hp as [p Hp].
  assert (Hf : frac_root d p w (nth t tab 0)).
  { apply root_ok_frac; [exact Hw|]. unfold table_ok in Ht. rewrite forallb_forall in Ht.
    specialize (Ht (p, nth t tab 0)). apply Ht.
    assert (E : nth_error (combine primes80 tab) t = Some (p, nth t tab 0)).
    { pose proof (nth_error_nth' tab 0 Hlt) as E2. revert Hp E2. generalize (nth t tab 0) as k. clear. intros k.
      revert t. generalize primes80 as l. induction tab as [|y tab IH]; intros l t H1 H2; [destruct t; discriminate H2|].
      destruct l as [|x l]; [destruct t; discriminate H1|]. destruct t as [|t].
      - injection H1 as ->. injection H2 as ->. reflexivity.
      - cbn [combine nth_error] in *. apply IH; assumption. }
    apply nth_error_In in E. exact E. }
  split; [exists p; split; [apply primes80_nth; exact Hp|exact Hf]|].
  intros k (q & Hq & Hk). rewrite (nth_prime_inj t q p Hq (primes80_nth t p Hp)) in Hk.
  apply (frac_root_inj d p w); assumption.
Qed.
Lemma K256_ok : table_ok 3 32 K256 = true. Proof. vm_compute. reflexivity. Qed.
Lemma H256_ok : table_ok 2 32 H256 = true. Proof. vm_compute. reflexivity. Qed.
Lemma K512_ok : table_ok 3 64 K512 = true. Proof. vm_compute. reflexivity. Qed.
Lemma H512_ok : table_ok 2 64 H512 = true. Proof. vm_compute. reflexivity. Qed.
