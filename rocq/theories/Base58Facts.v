(** Base58Facts.v - the base58 codec is a bijection between byte strings and texts over the alphabet. *)
From Verif Require Import Base BaseFacts Base58.

(** ** Alphabet *)
(** In proofs; for bip32/bip32.go:271, 383. *)
Definition digit_chk (d : Z) : bool := match b58val (b58char d) with Some e => e =? d | None => false end.
Lemma digits_chk : forallb (fun n => digit_chk (Z.of_nat n)) (seq 0 58) = true.
Proof. vm_compute. reflexivity. Qed.
Lemma val_char d : 0 <= d < 58 -> b58val (b58char d) = Some d.
Proof.
  intros H. pose proof (proj1 (forallb_forall _ _) digits_chk (Z.to_nat d)) as Q.
  rewrite in_seq in Q. specialize (Q ltac:(lia)). rewrite Z2Nat.id in Q by lia.
  unfold digit_chk in Q. destruct (b58val (b58char d)) as [e|]; [|discriminate].
  apply Z.eqb_eq in Q. subst. reflexivity.
Qed.
Lemma index_of_spec c l : forall i d, index_of c l i = Some d ->
  i <= d < i + Z.of_nat (length l) /\ nth (Z.to_nat (d - i)) l x31 = c.
Proof.
  induction l as [|x l IH]; intros i d H; [discriminate|]. cbn [index_of] in H. cbn [length].
  destruct (Byte.eqb c x) eqn:E.
  - injection H as <-. apply byte_eqb_spec in E. subst. rewrite Z.sub_diag. split; [lia|reflexivity].
  - apply IH in H as [H1 H2]. split; [lia|].
    replace (Z.to_nat (d - i)) with (S (Z.to_nat (d - (i + 1)))) by lia. exact H2.
Qed.
Lemma char_val c d : b58val c = Some d -> 0 <= d < 58 /\ b58char d = c.
Proof.
  intros H. apply index_of_spec in H as [H1 H2]. rewrite Z.sub_0_r in H2. split; [exact H1|exact H2].
Qed.
Lemma char_1 d : 0 <= d < 58 -> b58char d = x31 -> d = 0.
Proof. intros H E. pose proof (val_char d H) as V. rewrite E in V. injection V as <-. reflexivity. Qed.
Lemma val_1 : b58val x31 = Some 0. Proof. reflexivity. Qed.
Lemma char_0 : b58char 0 = x31. Proof. reflexivity. Qed.
Lemma char_inj a b : 0 <= a < 58 -> 0 <= b < 58 -> b58char a = b58char b -> a = b.
Proof. intros Ha Hb E. pose proof (val_char a Ha) as V. rewrite E, (val_char b Hb) in V. congruence. Qed.

(** ** Leading runs *)
Lemma count_lead_split c l : exists r, l = repeat c (count_lead c l) ++ r /\ match r with [] => True | x :: _ => x <> c end.
Proof.
  induction l as [|x l IH].
  - exists []. split; [reflexivity|exact I].
  - cbn [count_lead]. destruct (Byte.eqb x c) eqn:E.
    + apply byte_eqb_spec in E. subst x. destruct IH as (r & E & H). exists r. split; [|exact H].
      cbn [repeat app]. rewrite <- E. reflexivity.
    + exists (x :: l). split; [reflexivity|]. apply byte_eqb_neq. exact E.
Qed.
Lemma count_lead_app c n r : match r with [] => True | x :: _ => x <> c end ->
  count_lead c (repeat c n ++ r) = n.
Proof.
  intros H. induction n as [|n IH]; cbn [repeat app count_lead].
  - destruct r as [|x r]; [reflexivity|]. cbn [count_lead]. apply byte_eqb_neq in H. rewrite H. reflexivity.
  - rewrite byte_eqb_refl, IH. reflexivity.
Qed.

(** ** Values *)
(** In proofs; for bip32/bip32.go:271, 383. *)
Definition eval_be (b : Z) (ds : list Z) : Z := fold_left (fun a d => a * b + d) ds 0.
Lemma eval_be_snoc b ds d : eval_be b (ds ++ [d]) = eval_be b ds * b + d.
Proof. unfold eval_be. rewrite fold_left_app. reflexivity. Qed.
Lemma eval_be_rev b ds : eval_be b (rev ds) = eval_le b ds.
Proof.
  induction ds as [|d ds IH]; [reflexivity|]. cbn [rev]. rewrite eval_be_snoc, IH.
  change (eval_le b (d :: ds)) with (d + b * eval_le b ds). ring.
Qed.
Lemma eval_be_le b ds : eval_be b ds = eval_le b (rev ds).
Proof. rewrite <- eval_be_rev, rev_involutive. reflexivity. Qed.
Lemma eval_be_zeros b n ds : eval_be b (repeat 0 n ++ ds) = eval_be b ds.
Proof.
  unfold eval_be. rewrite fold_left_app. f_equal.
  induction n as [|n IH]; [reflexivity|]. cbn [repeat fold_left]. exact IH.
Qed.
Lemma b58digits_app a b : b58digits (a ++ b) = match b58digits a, b58digits b with
  Some x, Some y => Some (x ++ y) | _, _ => None end.
Proof.
  induction a as [|c a IH]; cbn [app b58digits].
  - destruct (b58digits b); reflexivity.
  - rewrite IH. destruct (b58val c); [|reflexivity]. destruct (b58digits a), (b58digits b); reflexivity.
Qed.
Lemma b58digits_ones n : b58digits (repeat x31 n) = Some (repeat 0 n).
Proof. induction n as [|n IH]; [reflexivity|]. cbn [repeat b58digits]. rewrite val_1, IH. reflexivity. Qed.
Lemma b58digits_map ds : Forall (fun d => 0 <= d < 58) ds -> b58digits (map b58char ds) = Some ds.
Proof.
  induction 1 as [|d ds Hd H IH]; [reflexivity|]. cbn [map b58digits]. rewrite (val_char d Hd), IH. reflexivity.
Qed.
Lemma b58digits_inv s : forall ds, b58digits s = Some ds -> Forall (fun d => 0 <= d < 58) ds /\ map b58char ds = s.
Proof.
  induction s as [|c s IH]; intros ds H; cbn [b58digits] in H.
  - injection H as <-. split; [constructor|reflexivity].
  - destruct (b58val c) as [d|] eqn:E; [|discriminate]. destruct (b58digits s) as [l|]; [|discriminate].
    injection H as <-. destruct (IH l eq_refl) as [H1 H2]. apply char_val in E as [E1 E2].
    split; [constructor; assumption|]. cbn [map]. rewrite E2, H2. reflexivity.
Qed.
Lemma last_rev_hd {A} (l : list A) d : last l d = hd d (rev l).
Proof.
  destruct l as [|x l] using rev_ind; [reflexivity|]. rewrite last_last, rev_app_distr. reflexivity.
Qed.

(** A byte string without leading zero byte is the minimal encoding of its value. *)
Lemma Z_bytes_nolead r : match r with [] => True | x :: _ => x <> x00 end -> Z_bytes (be_Z r) = r.
Proof.
  destruct r as [|x r]; [reflexivity|]. intros H.
  assert (Hx : 1 <= Zb x).
  { pose proof (Zb_range x). destruct (Z.eq_dec (Zb x) 0) as [E|E]; [|lia].
    exfalso. apply H. apply Zb_inj. rewrite E. reflexivity. }
  pose proof (be_Z_range (x :: r)) as Hr. rewrite (Z_bytes_full _ (length r)).
  - apply Z_be_be_Z. reflexivity.
  - split; [|exact (proj2 Hr)]. rewrite be_Z_cons. pose proof (be_Z_range r). pose proof (p256_pos (length r)). nia.
Qed.
Lemma Z_bytes_head v : 0 <= v -> match Z_bytes v with [] => True | x :: _ => x <> x00 end.
Proof.
  intros Hv. destruct (Z.eq_dec v 0) as [->|Hn]; [exact I|].
  pose proof (nbytes_bounds v ltac:(lia)) as Hb. pose proof (be_Z_bytes v Hv) as E.
  pose proof (Z_bytes_length v) as L. destruct (Z_bytes v) as [|x r]; [exact I|].
  intros ->. rewrite <- L in Hb. cbn [length pred] in Hb. rewrite <- E, be_Z_cons in Hb.
  pose proof (be_Z_range r). change (Zb x00) with 0 in Hb. lia.
Qed.

(** ** Round trips *)
Theorem Decode_Encode b : Decode58 (Encode58 b) = b.
Proof.
  destruct (count_lead_split x00 b) as (r & E & Hr). unfold Encode58. set (n := count_lead x00 b) in *.
  rewrite E, be_Z_zeros. clearbody n. clear E b. set (v := be_Z r).
  assert (Hv : 0 <= v) by apply be_Z_range.
  pose proof (digits_range 58 v ltac:(lia)) as Dr. pose proof (digits_last 58 v ltac:(lia) Hv) as Dl.
  pose proof (digits_eval 58 v ltac:(lia) Hv) as De.
  set (ds := digits 58 v) in *. unfold Decode58. rewrite <- map_rev.
  rewrite b58digits_app, b58digits_ones, b58digits_map by (apply Forall_rev; exact Dr). cbv zeta.
  change (fold_left (fun a d => a * 58 + d) ?l 0) with (eval_be 58 l).
  rewrite eval_be_zeros, eval_be_rev, De. unfold v. rewrite (Z_bytes_nolead r Hr). f_equal. f_equal.
  apply count_lead_app. rewrite last_rev_hd in Dl.
  destruct (rev ds) as [|d l] eqn:Er; [exact I|]. cbn [map]. intros C.
  assert (Hd : 0 <= d < 58) by (apply Forall_rev in Dr; rewrite Er in Dr; inversion Dr; assumption).
  apply char_1 in C; [|exact Hd]. apply Dl; [|exact C].
  intros ->. discriminate.
Qed.
Theorem Encode_Decode s ds : b58digits s = Some ds -> Encode58 (Decode58 s) = s.
Proof.
  intros H. pose proof (b58digits_inv s ds H) as [Dr Dm]. unfold Decode58. rewrite H. cbv zeta.
  change (fold_left (fun a d => a * 58 + d) ?l 0) with (eval_be 58 l).
  destruct (count_lead_split x31 s) as (t & E & Ht). set (n := count_lead x31 s) in *. clearbody n.
  rewrite E, b58digits_app, b58digits_ones in H.
  destruct (b58digits t) as [dt|] eqn:Et; [|discriminate]. injection H as <-.
  rewrite eval_be_zeros. apply b58digits_inv in Et as [Tr Tm].
  set (v := eval_be 58 dt).
  assert (Hv : 0 <= v) by (unfold v; rewrite eval_be_le; apply eval_le_nonneg; [lia|apply Forall_rev; exact Tr]).
  unfold Encode58. rewrite count_lead_app by (apply Z_bytes_head; exact Hv).
  rewrite be_Z_zeros, be_Z_bytes by exact Hv. rewrite E. f_equal. rewrite <- Tm.
  unfold v. rewrite eval_be_le, digits_eval_le; [rewrite <- map_rev, rev_involutive; reflexivity|lia|apply Forall_rev; exact Tr|].
  intros Hn. rewrite last_rev_hd, rev_involutive. destruct dt as [|d dt]; [exfalso; apply Hn; reflexivity|].
  cbn [hd]. intros ->. subst t. cbn [map] in Ht. apply Ht. reflexivity.
Qed.
Lemma Decode_bad s : b58digits s = None -> Decode58 s = [].
Proof. intros H. unfold Decode58. rewrite H. reflexivity. Qed.
Lemma Encode_inj a b : Encode58 a = Encode58 b -> a = b.
Proof. intros E. rewrite <- (Decode_Encode a), E. apply Decode_Encode. Qed.

(** The texts accepted are those over the alphabet. *)
Lemma index_of_none c l : forall i, index_of c l i = None <-> ~ In c l.
Proof.
  induction l as [|x l IH]; intros i; cbn [index_of In]; [tauto|].
  destruct (Byte.eqb c x) eqn:E.
  - apply byte_eqb_spec in E. subst. split; [discriminate|]. intros H. exfalso. apply H. left. reflexivity.
  - apply byte_eqb_neq in E. rewrite IH. split; [intros H [C|C]; [congruence|tauto]|tauto].
Qed.
Lemma b58digits_none s : b58digits s = None <-> exists c, In c s /\ ~ In c alphabet.
Proof.
  induction s as [|c s IH]; cbn [b58digits].
  - split; [discriminate|intros (c & [] & _)].
  - destruct (b58val c) as [d|] eqn:E.
    + assert (Hc : In c alphabet).
      { destruct (in_dec Byte.byte_eq_dec c alphabet) as [|N]; [assumption|]. apply (index_of_none c alphabet 0) in N.
        unfold b58val in E. congruence. }
      destruct (b58digits s) as [l|].
      * split; [discriminate|]. intros (c' & [<-|Hi] & N); [contradiction|].
        assert (@None (list Z) <> Some l) by discriminate. destruct IH as [_ IH].
        rewrite IH in *; [congruence|]. exists c'. split; assumption.
      * split; [intros _|reflexivity]. destruct IH as [IH _]. destruct (IH eq_refl) as (c' & Hi & N).
        exists c'. split; [right; exact Hi|exact N].
    + split; [intros _|reflexivity]. exists c. split; [left; reflexivity|]. apply index_of_none in E. exact E.
Qed.
Lemma b58digits_some s : Forall (fun c => In c alphabet) s -> exists ds, b58digits s = Some ds.
Proof.
  intros H. destruct (b58digits s) as [ds|] eqn:E; [exists ds; reflexivity|].
  apply b58digits_none in E as (c & Hi & N). rewrite Forall_forall in H. elim N. apply H. exact Hi.
Qed.
Lemma Encode_alphabet b : Forall (fun c => In c alphabet) (Encode58 b).
Proof.
  destruct (b58digits (Encode58 b)) as [ds|] eqn:E.
  - apply Forall_forall. intros c Hc. destruct (in_dec Byte.byte_eq_dec c alphabet) as [|N]; [assumption|].
    assert (b58digits (Encode58 b) = None) by (apply b58digits_none; exists c; tauto). congruence.
  - pose proof (Decode_Encode b) as D. rewrite (Decode_bad _ E) in D. subst b. discriminate.
Qed.
Lemma Encode_nil b : Encode58 b = [] <-> b = [].
Proof. split; [intros H; apply Encode_inj; rewrite H; reflexivity|intros ->; reflexivity]. Qed.
