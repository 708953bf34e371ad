(** GeneratorFacts.v - lemmas on Generator.v. *)
From Verif Require Import Base BaseFacts GoStr Prims Bip32Path Bip32Reg Bip32 Util Generator.

(** Neither a setter call nor a write through the pointer. *)
(** In proofs; for util/util.go:83-127. *)
Definition keeps (o : gop) : Prop := match o with GSet _ => False | GPoke _ _ => False | _ => True end.
(** An operation that assigns to the caller's variable i. *)
(** In proofs; for util/util.go:83-127. *)
Definition touches (i : nat) (o : gop) : Prop := match o with GGet j => j = i | GWrite j _ _ => j = i | _ => False end.

Lemma grun_app ops1 : forall s ops2, grun s (ops1 ++ ops2) = match grun s ops1 with Ret s1 => grun s1 ops2 | Panic => Panic end.
Proof.
  induction ops1 as [|o r IH]; intros s ops2; [reflexivity|]. cbn [app grun]. destruct (gstep s o) as [s1|]; cbn [bind]; [apply IH|reflexivity].
Qed.
Lemma gstep_keeps s o s' : keeps o -> gstep s o = Ret s' -> field s' = field s.
Proof.
  destruct o; cbn [keeps gstep]; intros K E; try contradiction.
  - injection E as <-. reflexivity.
  - destruct (put _ _ _) as [k|]; [|discriminate E]. cbn [bind] in E. injection E as <-. reflexivity.
  - injection E as <-. reflexivity.
Qed.
Lemma grun_keeps ops : forall s s', Forall keeps ops -> grun s ops = Ret s' -> field s' = field s.
Proof.
  induction ops as [|o r IH]; intros s s' F E; [injection E as <-; reflexivity|]. inversion F; subst. cbn [grun] in E.
  destruct (gstep s o) as [s1|] eqn:E1; [|discriminate E]. cbn [bind] in E. rewrite (IH s1 s') by assumption. eapply gstep_keeps; eassumption.
Qed.
Theorem set_is_a_copy s ops1 s1 i ops2 s2 : grun s ops1 = Ret s1 -> Forall keeps ops2 -> grun s (ops1 ++ GSet i :: ops2) = Ret s2 ->
  field s2 = vars s1 i.
Proof.
  intros E1 F E. rewrite grun_app, E1 in E. cbn [grun gstep bind] in E. apply grun_keeps in E; [|exact F]. exact E.
Qed.
Lemma put_ok k j b : (j < 78)%nat -> put k j b = Ret (firstn j k ++ b :: skipn (S j) k).
Proof. intros L. unfold put. apply Nat.ltb_lt in L. rewrite L. reflexivity. Qed.
Lemma put_length (k : bytes) j b : length k = 78%nat -> (j < 78)%nat -> length (firstn j k ++ b :: skipn (S j) k) = 78%nat.
Proof. intros L Lj. rewrite app_length, firstn_length. cbn [length]. rewrite skipn_length. lia. Qed.
Lemma put_nth (k : bytes) j b d : length k = 78%nat -> (j < 78)%nat -> nth j (firstn j k ++ b :: skipn (S j) k) d = b.
Proof. intros L Lj. rewrite app_nth2; rewrite firstn_length; [|lia]. replace (j - Nat.min j (length k))%nat with 0%nat by lia. reflexivity. Qed.

(** ** Schedules *)
Lemma KeyIsValid_at_same H k : KeyIsValid_at H k k k = KeyIsValid H k.
Proof. unfold KeyIsValid_at, KeyIsValid, Serialize. destruct (forallb _ k); reflexivity. Qed.
Lemma Derive_at_same H T rd k p : (forall j, (j < 7)%nat -> rd j = k) -> DeriveBIP32Result_at H T rd p = DeriveBIP32Result H T k p.
Proof.
  intros A. unfold DeriveBIP32Result_at, DeriveBIP32Result. rewrite !A by lia. rewrite KeyIsValid_at_same. reflexivity.
Qed.
(** The values the field has had: the first one and those set. *)
(** In proofs; for util/util.go:83-127. *)
Definition held (fld : bytes) (sched : list gev) (k : bytes) : Prop := k = fld \/ In (SetByOther k) sched.
Lemma reads_held sched : forall fld k, In k (reads fld sched) -> held fld sched k.
Proof.
  induction sched as [|[k'|] r IH]; intros fld k I; [destruct I| |].
  - cbn [reads] in I. destruct (IH _ _ I) as [->|J]; right; [left; reflexivity|right; exact J].
  - cbn [reads] in I. destruct I as [<-|I]; [left; reflexivity|]. destruct (IH _ _ I) as [->|J]; [left; reflexivity|right; right; exact J].
Qed.
Lemma reads_quiet n : forall fld, reads fld (repeat Read n) = repeat fld n.
Proof. induction n as [|n IH]; intros fld; [reflexivity|]. cbn [repeat reads]. rewrite IH. reflexivity. Qed.
Lemma last_cons (ks : list bytes) : forall k d, last (k :: ks) d = last ks k.
Proof. induction ks as [|k' ks IH]; intros k d; [reflexivity|]. change (last (k' :: ks) d = last (k' :: ks) k). rewrite !IH. reflexivity. Qed.
Lemma reads_set ks : forall fld r, reads fld (map SetByOther ks ++ r) = reads (last ks fld) r.
Proof. induction ks as [|k ks IH]; intros fld r; [reflexivity|]. cbn [map app reads]. rewrite IH, last_cons. reflexivity. Qed.
Lemma Derive_sched_seven H T fld sched p a b c d e f g : reads fld sched = [a; b; c; d; e; f; g] ->
  Derive_sched H T fld sched p = Some (DeriveBIP32Result_at H T (fun j => nth j [a; b; c; d; e; f; g] []) p).
Proof. intros E. unfold Derive_sched. rewrite E. reflexivity. Qed.
(** Checks passed on one key, results made from two others. *)
Lemma Derive_at_mixed H T k a b p : DeriveBIP32Result H T k p = Ret ([], Some ErrInvalidRootKey) \/
  DeriveBIP32Result_at H T (fun j => nth j [k; k; k; k; k; a; b] []) p =
  match DeriveBIP32Result H T k p with
  | Panic => DeriveBIP32Result_at H T (fun j => nth j [k; k; k; k; k; a; b] []) p
  | Ret (_, Some e) => Ret ([], Some e)
  | Ret (_, None) => let! rest := derive_loop H T (B "m") b (tl (fst (ValuesAtDepth p))) in Ret (mkKP (B "m") a :: rest, None)
  end.
Proof.
  unfold DeriveBIP32Result_at, DeriveBIP32Result. cbn [nth]. rewrite KeyIsValid_at_same. destruct (KeyIsValid H k) as [v|]; [|right; reflexivity]. cbn [bind].
  destruct (negb v || negb (IsPrivate k) || negb (Byte.eqb (key_at 4 k) x00)); [left; reflexivity|]. right.
  destruct (negb (PathIsValid p)); [reflexivity|]. destruct (ValuesAtDepth p) as [l [e|]]; [reflexivity|]. cbn [fst].
  destruct (derive_loop H T (B "m") k (tl l)); reflexivity.
Qed.

(** ** Schedules of bytes *)
Lemma put_fld_length k j b : length k = 78%nat -> length (match put k j b with Ret f => f | Panic => k end) = 78%nat.
Proof. intros L. unfold put. destruct (Nat.ltb_spec j 78); [|exact L]. rewrite app_length, firstn_length. cbn [length]. rewrite skipn_length. lia. Qed.
Lemma put_at k j b i : length k = 78%nat -> (j < 78)%nat -> nth_error (match put k j b with Ret f => f | Panic => k end) i = if Nat.eqb i j then Some b else nth_error k i.
Proof.
  intros L J. unfold put. destruct (Nat.ltb_spec j 78); [|lia]. destruct (Nat.eqb_spec i j) as [->|N].
  - rewrite nth_error_app2 by (rewrite firstn_length; lia). rewrite firstn_length, Nat.min_l, Nat.sub_diag by lia. reflexivity.
  - destruct (Nat.lt_ge_cases i j) as [Lt|Ge].
    + rewrite nth_error_app1 by (rewrite firstn_length; lia). rewrite <- (firstn_skipn j k) at 2. rewrite nth_error_app1 by (rewrite firstn_length; lia). reflexivity.
    + rewrite nth_error_app2 by (rewrite firstn_length; lia). rewrite firstn_length, Nat.min_l by lia. replace (i - j)%nat with (S (i - S j)) by lia. cbn [nth_error].
      rewrite <- (firstn_skipn (S j) k) at 2. rewrite nth_error_app2 by (rewrite firstn_length; lia). rewrite firstn_length, Nat.min_l by lia. reflexivity.
Qed.
Lemma put_out k j b : (78 <= j)%nat -> (match put k j b with Ret f => f | Panic => k end) = k.
Proof. intros J. unfold put. destruct (Nat.ltb_spec j 78); [lia|reflexivity]. Qed.
(** the writes of a schedule come from the keys [ks] *)
(** In proofs; for util/util.go:83-127. *)
Definition writes_of (ks : list bytes) (s : list bev) : Prop := forall j b, In (WByte j b) s -> exists k, In k ks /\ nth_error k j = Some b.
Lemma bread_held ks s : writes_of ks s -> forall fld n j b, length fld = 78%nat -> (forall i c, nth_error fld i = Some c -> exists k, In k ks /\ nth_error k i = Some c) ->
  bread fld s n j = Some b -> exists k, In k ks /\ nth_error k j = Some b.
Proof.
  intros W. induction s as [|[i c|n' j'] r IH]; intros fld n j b L F E; [discriminate E| |]; cbn [bread] in E.
  - assert (W' : writes_of ks r) by (intros x y I; apply W; right; exact I). apply (IH W') in E; [exact E|apply put_fld_length, L|]. intros x y N.
    destruct (Nat.lt_ge_cases i 78) as [Lt|Ge]; [|rewrite put_out in N by exact Ge; exact (F x y N)].
    rewrite put_at in N by assumption. destruct (Nat.eqb_spec x i) as [->|_]; [|exact (F x y N)]. injection N as <-. apply W. left. reflexivity.
  - assert (W' : writes_of ks r) by (intros x y I; apply W; right; exact I). destruct (_ && _); [exact (F _ _ E)|]. exact (IH W' fld n j b L F E).
Qed.
Lemma all_some_spec l r : all_some l = Some r -> l = map Some r.
Proof.
  revert r. induction l as [|[b|] l IH]; intros r E; cbn [all_some] in E; [injection E as <-; reflexivity| |discriminate E].
  destruct (all_some l) as [q|]; [|discriminate E]. injection E as <-. cbn [map]. f_equal. apply IH. reflexivity.
Qed.
Lemma all_some_map r : all_some (map Some r) = Some r.
Proof. induction r as [|b r IH]; [reflexivity|]. cbn [map all_some]. rewrite IH. reflexivity. Qed.
Lemma bread_key_held ks fld s n k : length fld = 78%nat -> In fld ks -> writes_of ks s -> bread_key fld s n = Some k ->
  length k = 78%nat /\ forall j b, nth_error k j = Some b -> exists k', In k' ks /\ nth_error k' j = Some b.
Proof.
  intros L I W E. unfold bread_key in E. apply all_some_spec in E. assert (Lk : length k = 78%nat) by (apply (f_equal (@length _)) in E; rewrite !map_length, seq_length in E; congruence).
  split; [exact Lk|]. intros j b N. assert (J : (j < 78)%nat) by (rewrite <- Lk; apply nth_error_Some; congruence).
  apply (f_equal (fun l => nth_error l j)) in E. rewrite !nth_error_map, N, (nth_error_nth' _ 0%nat) in E by (rewrite seq_length; exact J). rewrite seq_nth in E by exact J.
  cbn [option_map] in E. injection E as E. apply (bread_held ks s W fld n j b L); [|exact E]. intros i c Hc. exists fld. split; assumption.
Qed.
Lemma skipn_1 {A} c : forall l : list A, skipn 1 (skipn c l) = skipn (S c) l.
Proof. induction c as [|c IH]; intros [|x l]; [reflexivity|reflexivity|reflexivity|]. cbn [skipn] in *. destruct l as [|y l]; [destruct c; reflexivity|]. exact (IH (y :: l)). Qed.
Lemma writes_prefix k : length k = 78%nat -> forall c fld s n j, (c <= 78)%nat -> length fld = 78%nat ->
  bread fld (map (fun j => WByte j (nth j k x00)) (seq 0 c) ++ s) n j = bread (firstn c k ++ skipn c fld) s n j.
Proof.
  intros Lk c. induction c as [|c IH]; intros fld s n j C L; [reflexivity|]. rewrite seq_S, map_app, <- app_assoc. cbn [Nat.add map app]. rewrite IH by lia. cbn [bread]. f_equal.
  assert (LF : length (firstn c k ++ skipn c fld) = 78%nat) by (rewrite app_length, firstn_length, skipn_length; lia).
  unfold put. destruct (Nat.ltb_spec c 78); [|lia].
  assert (F1 : firstn c (firstn c k ++ skipn c fld) = firstn c k) by (rewrite firstn_app, firstn_firstn, Nat.min_id, firstn_length, Nat.min_l, Nat.sub_diag by lia; cbn [firstn]; apply app_nil_r).
  assert (F2 : skipn (S c) (firstn c k ++ skipn c fld) = skipn (S c) fld).
  { rewrite skipn_app, firstn_length, Nat.min_l by lia. rewrite skipn_all2 by (rewrite firstn_length; lia). replace (S c - c)%nat with 1%nat by lia. cbn [app]. apply skipn_1. }
  rewrite F1, F2. rewrite <- (firstn_skipn c (firstn (S c) k)). rewrite firstn_firstn, Nat.min_l by lia. rewrite <- app_assoc. f_equal.
  rewrite skipn_firstn_comm. replace (S c - c)%nat with 1%nat by lia.
  assert (E : skipn c k = nth c k x00 :: skipn (S c) k).
  { clear - Lk H. assert (Hl : (c < length k)%nat) by lia. clear H Lk. revert c Hl. induction k as [|x k IH]; intros c Hl; [cbn in Hl; lia|]. destruct c as [|c]; [reflexivity|]. cbn [skipn nth]. apply IH. cbn in Hl. lia. }
  rewrite E. reflexivity.
Qed.
Lemma SetBytes_bread k fld s n j : length k = 78%nat -> length fld = 78%nat -> bread fld (SetBytes k ++ s) n j = bread k s n j.
Proof. intros Lk L. unfold SetBytes. rewrite writes_prefix by (try assumption; lia). rewrite skipn_all2, firstn_all2 by lia. rewrite app_nil_r. reflexivity. Qed.
Lemma reads_skip l fld s n j : (forall e, In e l -> exists n' j', e = RByte n' j') ->
  bread fld (l ++ s) n j = if existsb (fun e => match e with RByte n' j' => Nat.eqb n' n && Nat.eqb j' j | _ => false end) l then nth_error fld j else bread fld s n j.
Proof.
  induction l as [|e l IH]; intros A; [reflexivity|]. destruct (A e (or_introl eq_refl)) as (n' & j' & ->). cbn [app bread existsb]. destruct (_ && _); [reflexivity|].
  apply IH. intros e I. apply A. right. exact I.
Qed.
Lemma ReadBytes_bread m fld s n j : (j < 78)%nat -> bread fld (ReadBytes m ++ s) n j = if Nat.eqb m n then nth_error fld j else bread fld s n j.
Proof.
  intros J. rewrite reads_skip by (unfold ReadBytes; intros e I; apply in_map_iff in I as (x & <- & _); eauto).
  match goal with |- (if ?c then _ else _) = _ => assert (E : c = Nat.eqb m n) end; [|rewrite E; reflexivity].
  unfold ReadBytes. destruct (Nat.eqb_spec m n) as [->|N].
  - apply existsb_exists. exists (RByte n j). split; [apply in_map; apply in_seq; lia|]. rewrite !Nat.eqb_refl. reflexivity.
  - apply not_true_iff_false. intros C. apply existsb_exists in C as (e & I & C). apply in_map_iff in I as (x & <- & _). apply andb_true_iff in C as [C _]. apply Nat.eqb_eq in C. contradiction.
Qed.
Lemma in_bytes_bread sched : forall m fld n j, (j < 78)%nat -> (m <= n)%nat -> length fld = 78%nat -> Forall (fun e => match e with SetByOther k => length k = 78%nat | Read => True end) sched ->
  bread fld (in_bytes m sched) n j = match nth_error (reads fld sched) (n - m) with Some k => nth_error k j | None => None end.
Proof.
  induction sched as [|[k|] r IH]; intros m fld n j J M L F; cbn [in_bytes reads].
  - destruct (n - m)%nat; reflexivity.
  - inversion F as [|x y Lk Fr E]; subst. rewrite SetBytes_bread by assumption. apply IH; assumption.
  - inversion F as [|x y _ Fr E]; subst. rewrite ReadBytes_bread by exact J. destruct (Nat.eqb_spec m n) as [->|N].
    + rewrite Nat.sub_diag. reflexivity.
    + replace (n - m)%nat with (S (n - S m)) by lia. cbn [nth_error]. apply IH; try assumption. lia.
Qed.
Lemma reads_length78 sched : forall fld, length fld = 78%nat -> Forall (fun e => match e with SetByOther k => length k = 78%nat | Read => True end) sched -> forall k, In k (reads fld sched) -> length k = 78%nat.
Proof.
  intros fld L F k I. apply reads_held in I as [->|I]; [exact L|]. rewrite Forall_forall in F. exact (F _ I).
Qed.
Lemma nth_all (k : bytes) : map (nth_error k) (seq 0 (length k)) = map Some k.
Proof.
  apply nth_ext with (d := None) (d' := None); [rewrite !map_length, seq_length; reflexivity|]. intros i Hi. rewrite map_length, seq_length in Hi.
  rewrite (nth_indep _ None (nth_error k 0)) by (rewrite map_length, seq_length; exact Hi). rewrite map_nth, seq_nth by exact Hi. cbn [Nat.add].
  rewrite (nth_indep _ None (Some x00)) by (rewrite map_length; exact Hi). rewrite map_nth. apply nth_error_nth'. exact Hi.
Qed.
Lemma bread_key_of fld s n k : length k = 78%nat -> (forall j, (j < 78)%nat -> bread fld s n j = nth_error k j) -> bread_key fld s n = Some k.
Proof.
  intros L A. unfold bread_key. rewrite (map_ext_in _ (nth_error k)) by (intros j I; apply A; apply in_seq in I; lia). rewrite <- L, nth_all. apply all_some_map.
Qed.
Lemma in_bytes_key sched fld n : length fld = 78%nat -> Forall (fun e => match e with SetByOther k => length k = 78%nat | Read => True end) sched ->
  bread_key fld (in_bytes 0 sched) n = nth_error (reads fld sched) n.
Proof.
  intros L F. destruct (nth_error (reads fld sched) n) as [k|] eqn:E.
  - apply bread_key_of; [apply (reads_length78 sched fld L F); exact (nth_error_In _ _ E)|]. intros j J. rewrite in_bytes_bread by (try assumption; lia). rewrite Nat.sub_0_r, E. reflexivity.
  - unfold bread_key. change (seq 0 78) with (0%nat :: seq 1 77). cbn [map all_some]. rewrite in_bytes_bread by (try assumption; lia). rewrite Nat.sub_0_r, E. reflexivity.
Qed.
Lemma Derive_in_bytes H T fld sched p : length fld = 78%nat -> Forall (fun e => match e with SetByOther k => length k = 78%nat | Read => True end) sched ->
  Derive_bytes H T fld (in_bytes 0 sched) p = Derive_sched H T fld sched p.
Proof.
  intros L F. unfold Derive_bytes, Derive_sched. rewrite !in_bytes_key by assumption. destruct (reads fld sched) as [|k0 [|k1 [|k2 [|k3 [|k4 [|k5 [|k6 l]]]]]]]; try reflexivity.
Qed.
