(** ClaimsMore.v - the property statements of PropsMore.v with their proofs. *)
From Verif Require Import Base BaseFacts GoStr GoStrFacts Prims Hash HashFacts Bip39 SpecBip39 WordLists Bip39Init Bip39InitFacts WlEnglish AllLists Secp SpecPath SpecBip32 SpecUtil Bip32Path Bip32Reg Bip32 Bip32PathFacts Bip32Facts Bip32KeyFacts Bip32Facts2 Bip32RegFacts UtilFacts Util Generator GeneratorFacts Claims32 ClaimsPath ClaimsUtil.
From Coq Require Import ZifyBool ZifyNat ZifyN.

Lemma root_value p l : ValuesAtDepth p = (l, None) -> exists vs, l = 0 :: vs.
Proof. intros E. apply Values_valid in E as (hs & ss & _ & _ & _ & ->). eexists. reflexivity. Qed.
Lemma boot_ok files eng : (forall t c, In (t, c) files -> wl_init t c = Ret tt) -> boot files eng = Ret (SetWordList (wl_words eng)).
Proof. intros A. unfold boot. rewrite (proj2 (wl_inits_iff files)); [reflexivity|]. intros t c I. apply wl_init_iff. exact (A t c I). Qed.
Lemma boot_bundled : boot bundled english_text = Ret (SetWordList english).
Proof. unfold english. apply boot_ok. intros t c I. exact (proj1 (bundled_good t c I)). Qed.

Lemma C75_compare_l : forall a b, (compareByteSlices a b = Ret true <-> a = b) /\ (compareByteSlices a b = Ret false <-> a <> b) /\ compareByteSlices a b <> Panic.
Proof.
intros a b. rewrite compare_spec. pose proof (bytes_eqb_spec a b) as K. destruct (bytes_eqb a b).
  - assert (a = b) by (apply K; reflexivity). split; [split; [intros _; assumption|reflexivity]|]. split; [split; [discriminate|contradiction]|discriminate].
  - assert (a <> b) by (intros X; apply K in X; discriminate). split; [split; [discriminate|contradiction]|]. split; [split; [intros _; assumption|reflexivity]|discriminate].
Qed.

Lemma C75_compare_ex_l : compareByteSlices [x01] [x01] = Ret true /\ compareByteSlices [x01] [] = Ret false /\ compareByteSlices [x01; x02] [x01; x03] = Ret false.
Proof.
repeat split.
Qed.

Lemma C76_boot_l : boot bundled english_text = Ret (SetWordList english) /\
  (forall files eng, boot files eng = Panic <-> exists t c, In (t, c) files /\ Sprintf_x (crc32 t) <> c) /\
  (forall files eng, (forall t c, In (t, c) files -> Sprintf_x (crc32 t) = c) -> boot files eng = Ret (SetWordList (wl_words eng))).
Proof.
split; [|split].
  - exact boot_bundled.
  - intros files eng. unfold boot. pose proof (wl_inits_iff files) as K. split.
    + intros E. destruct (wl_inits_total files) as [W|W]; rewrite W in E; [discriminate E|].
      clear K E. induction files as [|[t c] fs IH]; [discriminate W|]. cbn [wl_inits] in W. destruct (wl_init t c) as [[]|] eqn:I.
      * destruct (IH W) as (t' & c' & J & N). exists t', c'. split; [right; exact J|exact N].
      * exists t, c. split; [left; reflexivity|]. apply wl_init_panic. exact I.
    + intros (t & c & I & N). destruct (wl_inits_total files) as [W|W]; rewrite W; [|reflexivity]. exfalso. apply N. exact (proj1 K W t c I).
  - intros files eng A. unfold boot. rewrite (proj2 (wl_inits_iff files) A). reflexivity.
Qed.

Lemma C76_corruption_panics_l : forall fs1 fs2 p x y s c eng, length x = length y -> (length x <= 4)%nat -> x <> y ->
  wl_init (p ++ x ++ s) c = Ret tt -> boot (fs1 ++ (p ++ y ++ s, c) :: fs2) eng = Panic.
Proof.
intros fs1 fs2 p x y s c eng L L4 N E. apply (proj1 (proj2 C76_boot_l)). exists (p ++ y ++ s), c. split; [apply in_or_app; right; left; reflexivity|].
  apply wl_init_panic. exact (init_detects p x y s c E L L4 N).
Qed.

Lemma C76_checksum_not_enough_refuted_l : forall p b x s c b', wl_init (p ++ b :: x ++ s) c = Ret tt -> length x = 4%nat -> b' <> b ->
  exists x', length x' = 4%nat /\ wl_init (p ++ b' :: x' ++ s) c = Ret tt /\ p ++ b' :: x' ++ s <> p ++ b :: x ++ s.
Proof.
intros p b x s c b' E L N. destruct (init_misses p b x s c E L b' N) as (x' & L' & E'). exists x'. split; [exact L'|]. split; [exact E'|].
  intros X. apply app_inv_head in X. congruence.
Qed.

Lemma C76_ex_l : (exists p s, wl_init (p ++ B "able" ++ s) english_crc = Ret tt) /\ B "able" <> B "ably" /\ Sprintf_x (crc32 (B "123456789")) = B "cbf43926" /\
  (exists p b x s, wl_init (p ++ b :: x ++ s) english_crc = Ret tt /\ length x = 4%nat).
Proof.
pose proof (proj1 (bundled_good english_text english_crc (or_intror (or_intror (or_intror (or_introl eq_refl)))))) as I. split; [|split; [|split]].
  - exists (firstn 16 english_text), (skipn 20 english_text). exact I.
  - discriminate.
  - vm_compute. reflexivity.
  - exists [], (hd x00 english_text), (firstn 4 (tl english_text)), (skipn 4 (tl english_text)). split; [exact I|reflexivity].
Qed.

Lemma C77_set_copies_l : forall H T s ops1 s1 i ops2 s2, grun s ops1 = Ret s1 -> Forall keeps ops2 -> grun s (ops1 ++ GSet i :: ops2) = Ret s2 ->
  field s2 = vars s1 i /\ forall p, GenDerive H T s2 p = DeriveBIP32Result H T (vars s1 i) p.
Proof.
intros H T s ops1 s1 i ops2 s2 E1 F E. pose proof (set_is_a_copy s ops1 s1 i ops2 s2 E1 F E) as K. split; [exact K|]. intros p. unfold GenDerive. rewrite K. reflexivity.
Qed.

Lemma gstep_untouched i s o s' : ~ touches i o -> gstep s o = Ret s' -> vars s' i = vars s i.
Proof.
  destruct o; cbn [touches gstep]; intros N E.
  - injection E as <-. reflexivity.
  - injection E as <-. cbn [vars]. unfold assign. destruct (Nat.eqb_spec i i0); [congruence|reflexivity].
  - destruct (put _ _ _) as [k|]; [|discriminate E]. cbn [bind] in E. injection E as <-. cbn [vars]. unfold assign. destruct (Nat.eqb_spec i i0); [congruence|reflexivity].
  - destruct (put _ _ _) as [k|]; [|discriminate E]. cbn [bind] in E. injection E as <-. reflexivity.
  - injection E as <-. reflexivity.
Qed.
Lemma grun_untouched i ops : forall s s', Forall (fun o => ~ touches i o) ops -> grun s ops = Ret s' -> vars s' i = vars s i.
Proof.
  induction ops as [|o r IH]; intros s s' F E; [injection E as <-; reflexivity|]. inversion F; subst. cbn [grun] in E.
  destruct (gstep s o) as [s1|] eqn:E1; [|discriminate E]. cbn [bind] in E. rewrite (IH s1 s') by assumption. eapply gstep_untouched; eassumption.
Qed.

Lemma C77_variables_l : forall s ops1 s1 i ops2 s2, grun s ops1 = Ret s1 -> Forall (fun o => ~ touches i o) ops2 ->
  (grun s (ops1 ++ ops2) = Ret s2 -> vars s2 i = vars s1 i) /\
  (grun s (ops1 ++ GGet i :: ops2) = Ret s2 -> vars s2 i = field s1) /\
  (forall j b, grun s (ops1 ++ GWrite i j b :: ops2) = Ret s2 -> (j < 78)%nat /\ vars s2 i = firstn j (vars s1 i) ++ b :: skipn (S j) (vars s1 i)).
Proof.
intros s ops1 s1 i ops2 s2 E F. rewrite !grun_app, E. split; [apply grun_untouched; exact F|]. split.
  - cbn [grun gstep bind]. intros E2. rewrite (grun_untouched i ops2 _ _ F E2). cbn [vars]. unfold assign. rewrite Nat.eqb_refl. reflexivity.
  - intros j b. rewrite grun_app, E. cbn [grun gstep]. unfold put. destruct (Nat.ltb_spec j 78) as [L|L]; [|discriminate]. cbn [bind]. intros E2. split; [exact L|].
    rewrite (grun_untouched i ops2 _ _ F E2). cbn [vars]. unfold assign. rewrite Nat.eqb_refl. reflexivity.
Qed.

Lemma C77_unset_l : forall H T vs ops s p, prims_ok H -> Forall keeps ops -> grun (new_generator vs) ops = Ret s -> GenDerive H T s p = Ret ([], Some ErrInvalidRootKey).
Proof.
intros H T vs ops s p HP F E. apply grun_keeps in E; [|exact F]. unfold GenDerive. rewrite E. cbn [field new_generator].
  apply C41_rejects_l; [exact HP|reflexivity|]. intros (_ & (x & I & N) & _). apply N. exact (repeat_spec 78 x00 x I).
Qed.

Lemma C77_pointer_refuted_l : forall H T vs i p, prims_ok H -> after_init T -> root_key (vs i) -> PathIsValid p = true ->
  exists s1 s2, grun (new_generator vs) [GSet i] = Ret s1 /\ grun (new_generator vs) [GSet i; GPoke 4 x01] = Ret s2 /\
    (exists kps, GenDerive H T s1 p = Ret (kps, None)) /\ GenDerive H T s2 p = Ret ([], Some ErrInvalidRootKey) /\
    vars s1 = vs /\ vars s2 = vs.
Proof.
intros H T vs i p HP HT HR V. pose proof HR as (L & _). eexists. eexists. split; [reflexivity|]. split.
  - cbn [grun gstep bind field vars new_generator]. rewrite put_ok by lia. reflexivity.
  - split; [|split; [|split; reflexivity]].
    + unfold PathIsValid in V. destruct (ValuesAtDepth p) as [vals [e|]] eqn:EV; [discriminate V|].
      destruct (root_value _ _ EV) as (ws & ->). destruct (C41_chain_l H T (vs i) p ws HP HT HR EV) as (kps & E & _). exists kps. exact E.
    + unfold GenDerive. cbn [field]. apply C41_rejects_l; [exact HP|apply put_length; lia|]. intros (_ & _ & _ & E4). rewrite put_nth in E4 by lia. discriminate E4.
Qed.

Lemma C77_pointer_silent_refuted_l : forall H T vs i p b, prims_ok H -> after_init T -> root_key (vs i) -> PathIsValid p = true -> nth 77 (vs i) x00 <> b -> b <> x00 ->
  exists s2 kp kps, grun (new_generator vs) [GSet i; GPoke 77 b] = Ret s2 /\ GenDerive H T s2 p = Ret (kp :: kps, None) /\ KKey kp <> vs i.
Proof.
intros H T vs i p b HP HT HR V NB BZ. pose proof HR as (L & _ & E45 & E4). set (k' := firstn 77 (vs i) ++ b :: skipn 78 (vs i)).
  assert (R' : root_key k').
  { split; [apply (put_length (vs i) 77 b L); lia|]. split; [exists b; split; [apply in_or_app; right; left; reflexivity|exact BZ]|].
    unfold k'. rewrite !app_nth1 by (rewrite firstn_length; lia). rewrite <- (firstn_skipn 77 (vs i)) in E45, E4. rewrite app_nth1 in E45 by (rewrite firstn_length; lia). rewrite app_nth1 in E4 by (rewrite firstn_length; lia). split; assumption. }
  unfold PathIsValid in V. destruct (ValuesAtDepth p) as [vals [e|]] eqn:EV; [discriminate V|].
  destruct (root_value _ _ EV) as (ws & ->). destruct (C41_chain_l H T k' p ws HP HT R' EV) as (kps & E & _ & N0 & _).
  destruct kps as [|kp kps]; [discriminate N0|]. injection N0 as ->. exists (mkG k' vs), (mkKP (B "m") k'), kps. split; [reflexivity|]. split; [exact E|]. cbn [KKey].
  intros X. apply NB. rewrite <- X. apply (put_nth (vs i) 77 b x00 L). lia.
Qed.

Lemma C77_ex_l : root_key (xprv xprv_version x00 z4 z4 z32 1) /\ PathIsValid (B "m/44'/1") = true /\ nth 77 (xprv xprv_version x00 z4 z4 z32 1) x00 <> x05 /\
  Forall keeps [GWrite 0 4 x01; GGet 1; GDerive (B "m")] /\ (exists s, grun (new_generator (fun _ => xprv xprv_version x00 z4 z4 z32 1)) [GSet 0; GWrite 0 4 x01; GGet 1; GDerive (B "m")] = Ret s).
Proof.
split; [exact (proj1 C41_ex_l)|]. split; [vm_compute; reflexivity|]. split; [vm_compute; discriminate|]. split; [repeat constructor|]. eexists. reflexivity.
Qed.

(** Whether the field has held a key under a schedule. *)
Lemma held_nth fld sched j : (7 <= length (reads fld sched))%nat -> (j < 7)%nat -> nth j (reads fld sched) [] = fld \/ In (SetByOther (nth j (reads fld sched) [])) sched.
Proof. intros L J. apply reads_held. apply nth_In. lia. Qed.
Lemma Derive_at_ok H T rd p kp kps : DeriveBIP32Result_at H T rd p = Ret (kp :: kps, None) ->
  exists vs, ValuesAtDepth p = (0 :: vs, None) /\ kp = mkKP (B "m") (rd 5%nat) /\ derive_loop H T (B "m") (rd 6%nat) vs = Ret kps.
Proof.
  unfold DeriveBIP32Result_at. destruct (KeyIsValid_at H (rd 0%nat) (rd 1%nat) (rd 2%nat)) as [v|]; [|discriminate]. cbn [bind].
  destruct (negb v || negb (IsPrivate (rd 3%nat)) || negb (Byte.eqb (key_at 4 (rd 4%nat)) x00)); [discriminate|]. destruct (negb (PathIsValid p)); [discriminate|].
  destruct (ValuesAtDepth p) as [l [e|]] eqn:EV; [discriminate|]. destruct (root_value _ _ EV) as (vs & ->). cbn [tl]. destruct (derive_loop H T (B "m") (rd 6%nat) vs) as [r|] eqn:E; [|discriminate]. cbn [bind].
  intros X. injection X as <- <-. exists vs. split; [reflexivity|]. split; [reflexivity|]. exact E.
Qed.
Lemma derive_loop_wf H T vs kps : forall dp k, derive_loop H T dp k vs = Ret kps -> linked H T dp k vs kps.
Proof.
  revert kps. induction vs as [|v r IH]; intros kps dp k E; cbn [derive_loop] in E; [injection E as <-; constructor|].
  destruct (NewChildKey H T k v) as [[k' e]|] eqn:EN; [|discriminate E]. cbn [bind] in E. destruct (derive_loop H T (append_val dp v) k' r) as [rest|] eqn:ER; [|discriminate E]. cbn [bind] in E.
  injection E as <-. econstructor; [exact EN|]. apply IH. exact ER.
Qed.

Lemma C78_undisturbed_l : forall H T fld ks1 ks2 p,
  Derive_sched H T fld (map SetByOther ks1 ++ repeat Read 7 ++ map SetByOther ks2) p = Some (DeriveBIP32Result H T (last ks1 fld) p).
Proof.
intros H T fld ks1 ks2 p. assert (E : reads fld (map SetByOther ks1 ++ repeat Read 7 ++ map SetByOther ks2) = repeat (last ks1 fld) 7).
  { rewrite reads_set. cbn [repeat app reads]. rewrite <- (app_nil_r (map SetByOther ks2)), reads_set. reflexivity. }
  erewrite Derive_sched_seven by exact E. f_equal. apply Derive_at_same. intros j J. do 7 (destruct j as [|j]; [reflexivity|]). lia.
Qed.

Lemma C78_values_held_l : forall H T fld sched p kp kps, Derive_sched H T fld sched p = Some (Ret (kp :: kps, None)) ->
  exists k vs, ValuesAtDepth p = (0 :: vs, None) /\ length kps = length vs /\
    (KKey kp = fld \/ In (SetByOther (KKey kp)) sched) /\ (k = fld \/ In (SetByOther k) sched) /\
    (forall j v, nth_error vs j = Some v -> exists kp' prev e, nth_error kps j = Some kp' /\ nth_error (k :: map KKey kps) j = Some prev /\
       NewChildKey H T prev v = Ret (KKey kp', e)).
Proof.
intros H T fld sched p kp kps E. unfold Derive_sched in E. destruct (Nat.ltb_spec (length (reads fld sched)) 7) as [L|L]; [discriminate E|]. assert (E' : DeriveBIP32Result_at H T (fun j => nth j (reads fld sched) []) p = Ret (kp :: kps, None)) by congruence.
  apply Derive_at_ok in E' as (vs & EV & EK & ED). exists (nth 6 (reads fld sched) []), vs. split; [exact EV|]. apply derive_loop_wf in ED. split; [exact (linked_length _ _ _ _ _ _ ED)|].
  split; [rewrite EK; apply held_nth; [exact L|lia]|]. split; [apply held_nth; [exact L|lia]|]. exact (linked_nth _ _ _ _ _ _ ED).
Qed.

Lemma C78_mixed_refuted_l : forall H T a b p vs, prims_ok H -> after_init T -> root_key a -> root_key b -> ValuesAtDepth p = (0 :: vs, None) ->
  exists kps, DeriveBIP32Result H T b p = Ret (mkKP (B "m") b :: kps, None) /\
    Derive_sched H T a (repeat Read 6 ++ [SetByOther b; Read]) p = Some (Ret (mkKP (B "m") a :: kps, None)).
Proof.
intros H T a b p vs HP HT (La & NZa & a45 & a4) (Lb & NZb & b45 & b4) EV. destruct (Derive_spec H T a p HP HT La NZa a45 a4 vs EV) as (ka & Ea & _).
  destruct (derive_loop_ok H T vs HP HT (B "m") b Lb) as (kps & ED & L). exists kps. split.
  - destruct (Derive_spec H T b p HP HT Lb NZb b45 b4 vs EV) as (kb & Eb & Lk). rewrite Eb. rewrite (linked_fun _ _ _ _ _ _ _ Lk L). reflexivity.
  - erewrite Derive_sched_seven by reflexivity. destruct (Derive_at_mixed H T a a b p) as [C|C]; [congruence|]. rewrite C, Ea, EV. cbn [fst tl]. rewrite ED. reflexivity.
Qed.

Lemma C78_unchecked_refuted_l : forall H T a k p vs, prims_ok H -> after_init T -> root_key a -> length k = 78%nat -> ~ root_key k -> ValuesAtDepth p = (0 :: vs, None) ->
  DeriveBIP32Result H T k p = Ret ([], Some ErrInvalidRootKey) /\
  exists kps, Derive_sched H T a (repeat Read 5 ++ [SetByOther k; Read; Read]) p = Some (Ret (mkKP (B "m") k :: kps, None)).
Proof.
intros H T a k p vs HP HT (La & NZa & a45 & a4) Lk NR EV. split; [exact (proj1 (C41_rejects_l H T k p HP Lk) NR)|]. destruct (Derive_spec H T a p HP HT La NZa a45 a4 vs EV) as (ka & Ea & _).
  destruct (derive_loop_ok H T vs HP HT (B "m") k Lk) as (kps & ED & L). exists kps.
  erewrite Derive_sched_seven by reflexivity. destruct (Derive_at_mixed H T a k k p) as [C|C]; [congruence|]. rewrite C, Ea, EV. cbn [fst tl]. rewrite ED. reflexivity.
Qed.

Lemma C78_spurious_refuted_l : forall H T a b p, prims_ok H -> root_key a -> root_key b -> ChecksumDblSha256 H a <> ChecksumDblSha256 H b ->
  Derive_sched H T a (repeat Read 2 ++ SetByOther b :: repeat Read 5) p = Some (Ret ([], Some ErrInvalidRootKey)).
Proof.
intros H T a b p HP (La & NZa & _) (Lb & _) NC. erewrite Derive_sched_seven by reflexivity. f_equal. unfold DeriveBIP32Result_at, KeyIsValid_at. cbn [nth].
  apply exists_nonzero in NZa. assert (forallb (fun v => Byte.eqb v x00) a = false) as -> by (destruct (forallb _ a); [discriminate NZa|reflexivity]).
  unfold Deserialize. assert (LC : length (ChecksumDblSha256 H a) = 4%nat) by (exact (checksum_length H a HP)). rewrite app_length, Lb, LC. change (Nat.eqb (78 + 4) 82) with true. cbn [negb].
  set (c := ChecksumDblSha256 H a) in *. assert (F1 : firstn 78 (b ++ c) = b) by (rewrite <- Lb, firstn_app, Nat.sub_diag, firstn_all; cbn [firstn]; apply app_nil_r).
  assert (F2 : skipn 78 (b ++ c) = c) by (rewrite <- Lb, skipn_app, Nat.sub_diag, skipn_all; reflexivity). rewrite F1, F2.
  assert (arr 78 b = Ret b) as -> by (unfold arr; rewrite <- Lb, Nat.leb_refl, firstn_all; reflexivity). cbn [bind].
  destruct (bytes_eqb _ _) eqn:EB; [apply bytes_eqb_spec in EB; congruence|]. reflexivity.
Qed.

Lemma C78_bytes_whole_l : forall H T fld sched p, length fld = 78%nat -> (forall k, In (SetByOther k) sched -> length k = 78%nat) ->
  Derive_bytes H T fld (in_bytes 0 sched) p = Derive_sched H T fld sched p.
Proof.
intros H T fld sched p L A. apply Derive_in_bytes; [exact L|]. rewrite Forall_forall. intros [k|] I; [exact (A k I)|exact Logic.I].
Qed.

Lemma C78_events_l : forall sched n e, In e (in_bytes n sched) -> match e with WByte j _ => j < 78 | RByte m j => j < 78 /\ n <= m end%nat.
Proof.
induction sched as [|[k|] r IH]; intros n e I; [contradiction| |].
- cbn [in_bytes] in I. apply in_app_or in I as [I|I]; [|exact (IH n e I)]. apply in_map_iff in I as (j & <- & J). apply in_seq in J. lia.
- cbn [in_bytes] in I. apply in_app_or in I as [I|I]; [apply in_map_iff in I as (j & <- & J); apply in_seq in J; lia|]. pose proof (IH (S n) e I) as P. destruct e; lia.
Qed.

Lemma C78_torn_l : forall H T fld ks s p kp kps, length fld = 78%nat ->
  (forall j b, In (WByte j b) s -> exists k, In k ks /\ nth_error k j = Some b) ->
  Derive_bytes H T fld s p = Some (Ret (kp :: kps, None)) ->
  exists k vs, ValuesAtDepth p = (0 :: vs, None) /\ length kps = length vs /\ length (KKey kp) = 78%nat /\ length k = 78%nat /\
    (forall j b, nth_error (KKey kp) j = Some b -> exists k', In k' (fld :: ks) /\ nth_error k' j = Some b) /\
    (forall j b, nth_error k j = Some b -> exists k', In k' (fld :: ks) /\ nth_error k' j = Some b) /\
    (forall j v, nth_error vs j = Some v -> exists kp' prev e, nth_error kps j = Some kp' /\ nth_error (k :: map KKey kps) j = Some prev /\
       NewChildKey H T prev v = Ret (KKey kp', e)).
Proof.
intros H T fld ks s p kp kps L W E. assert (W' : writes_of (fld :: ks) s) by (intros j b I; destruct (W j b I) as (k & Ik & N); exists k; split; [right; exact Ik|exact N]).
unfold Derive_bytes in E. destruct (bread_key fld s 0) as [k0|]; [|discriminate E]. destruct (bread_key fld s 1) as [k1|]; [|discriminate E]. destruct (bread_key fld s 2) as [k2|]; [|discriminate E].
destruct (bread_key fld s 3) as [k3|]; [|discriminate E]. destruct (bread_key fld s 4) as [k4|]; [|discriminate E]. destruct (bread_key fld s 5) as [k5|] eqn:E5; [|discriminate E]. destruct (bread_key fld s 6) as [k6|] eqn:E6; [|discriminate E].
assert (E' : DeriveBIP32Result_at H T (fun n => nth n [k0; k1; k2; k3; k4; k5; k6] []) p = Ret (kp :: kps, None)) by congruence.
apply Derive_at_ok in E' as (vs & EV & EK & ED). cbn [nth] in EK, ED. destruct (bread_key_held (fld :: ks) fld s 5 k5 L (or_introl eq_refl) W' E5) as [L5 B5]. destruct (bread_key_held (fld :: ks) fld s 6 k6 L (or_introl eq_refl) W' E6) as [L6 B6].
apply derive_loop_wf in ED. exists k6, vs. subst kp. split; [exact EV|]. split; [exact (linked_length _ _ _ _ _ _ ED)|]. split; [exact L5|]. split; [exact L6|]. split; [exact B5|]. split; [exact B6|]. exact (linked_nth _ _ _ _ _ _ ED).
Qed.

Lemma C78_torn_refuted_l : forall H T a b p vs, prims_ok H -> after_init T -> root_key a -> root_key b -> (exists x, In x (skipn 45 a) /\ x <> x00) -> ValuesAtDepth p = (0 :: vs, None) ->
  let m := firstn 45 b ++ skipn 45 a in
  let s := firstn 45 (SetBytes b) ++ flat_map ReadBytes (seq 0 7) ++ skipn 45 (SetBytes b) in
  exists kps, Derive_bytes H T a s p = Some (Ret (mkKP (B "m") m :: kps, None)) /\
    DeriveBIP32Result H T m p = Ret (mkKP (B "m") m :: kps, None) /\
    (firstn 45 a <> firstn 45 b -> m <> a) /\ (skipn 45 a <> skipn 45 b -> m <> b).
Proof.
intros H T a b p vs HP HT (La & (xa & Ia & Na) & a45 & a4) (Lb & (xb & Ib & Nb) & b45 & b4) NZk EV m s.
assert (F1 : length (firstn 45 b) = 45%nat) by (rewrite firstn_length; lia). assert (F2 : length (skipn 45 a) = 33%nat) by (rewrite skipn_length; lia).
assert (Lm : length m = 78%nat) by (unfold m; rewrite app_length; lia).
assert (m45 : nth 45 m x00 = x00). { unfold m. rewrite app_nth2 by lia. rewrite F1. change (45 - 45)%nat with 0%nat. rewrite <- a45 at 2. rewrite <- (firstn_skipn 45 a) at 2. rewrite app_nth2 by (rewrite firstn_length; lia). rewrite firstn_length, La. reflexivity. }
assert (m4 : nth 4 m x00 = x00). { unfold m. rewrite app_nth1 by lia. rewrite <- b4 at 2. rewrite <- (firstn_skipn 45 b) at 2. rewrite app_nth1 by lia. reflexivity. }
assert (KEYS : forall n, (n < 7)%nat -> bread_key a s n = Some m).
{ intros n Hn. apply bread_key_of; [exact Lm|]. intros j J. unfold s, SetBytes. rewrite firstn_map. change (firstn 45 (seq 0 78)) with (seq 0 45). rewrite writes_prefix by (try assumption; lia). fold m.
  cbn [seq flat_map]. rewrite <- !app_assoc. cbn [app]. rewrite !ReadBytes_bread by exact J. do 7 (destruct n as [|n]; [reflexivity|]). lia. }
assert (NZm : exists x, In x m /\ x <> x00) by (destruct NZk as (x & I & N); exists x; split; [unfold m; apply in_or_app; right; exact I|exact N]).
destruct (Derive_spec H T m p HP HT Lm NZm m45 m4 vs EV) as (kps & Em & _). exists kps. split; [|split; [exact Em|split]].
- unfold Derive_bytes. rewrite !KEYS by lia. f_equal. rewrite <- Em. apply Derive_at_same. intros j J. do 7 (destruct j as [|j]; [reflexivity|]). lia.
- intros N C. apply N. transitivity (firstn 45 m); [f_equal; symmetry; exact C|]. unfold m. rewrite firstn_app, F1, Nat.sub_diag, firstn_O, app_nil_r. apply firstn_all2. lia.
- intros N C. apply N. transitivity (skipn 45 m); [|f_equal; exact C]. unfold m. rewrite skipn_app, F1, Nat.sub_diag. rewrite (skipn_all2 (firstn 45 b)) by (rewrite F1; apply le_n). reflexivity.
Qed.

Lemma C78_ex_l : let a := xprv xprv_version x00 z4 z4 z32 1 in let b := xprv xprv_version x00 z4 z4 (repeat x01 32) 2 in
  root_key a /\ root_key b /\ a <> b /\ ChecksumDblSha256 RealPrims a <> ChecksumDblSha256 RealPrims b /\
  ~ root_key (repeat x00 78) /\ firstn 45 a <> firstn 45 b /\ skipn 45 a <> skipn 45 b /\ (exists x, In x (skipn 45 a) /\ x <> x00) /\
  ValuesAtDepth (B "m/44'/1") = ([0; 2147483692; 1], None).
Proof.
cbv zeta. assert (R1 : root_key (xprv xprv_version x00 z4 z4 z32 1)) by exact (proj1 C41_ex_l).
  split; [exact R1|]. split; [|split; [|split; [|split]]].
  - split; [reflexivity|]. split; [|split; reflexivity]. exists x02. split; [vm_compute; repeat ((left; reflexivity) || right)|discriminate].
  - vm_compute. discriminate.
  - vm_compute. discriminate.
  - intros (_ & (x & I & N) & _). apply N. exact (repeat_spec 78 x00 x I).
  - split; [vm_compute; discriminate|]. split; [vm_compute; discriminate|]. split; [|vm_compute; reflexivity]. exists x01. split; [vm_compute; repeat ((left; reflexivity) || right)|discriminate].
Qed.
