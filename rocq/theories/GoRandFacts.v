(** GoRandFacts.v - the loops of GoRand.v against SpecRand.v (C100). *)
From Verif Require Import Base Bip39 SpecBip39 Bip39Facts GoRand SpecRand.
From Coq Require Import Lia.

Lemma read_end_short buf n e : (n < length buf)%nat -> read_end buf n e = (buf, n, eof n e).
Proof. intros L. unfold read_end, eof. replace (length buf <=? n)%nat with false by (symmetry; apply Nat.leb_gt; lia). destruct e as [[]|]; reflexivity. Qed.
Lemma read_end_full buf n e : (length buf <= n)%nat -> read_end buf n e = (buf, n, None).
Proof. intros L. unfold read_end. replace (length buf <=? n)%nat with true by (symmetry; apply Nat.leb_le; lia). reflexivity. Qed.
Lemma put_length (w p : bytes) : (length w <= length p)%nat -> length (w ++ skipn (length w) p) = length p.
Proof. intros L. rewrite app_length, skipn_length. lia. Qed.
Lemma skip_skip {A} a b (l : list A) : skipn a (skipn b l) = skipn (b + a) l.
Proof. revert l. induction b as [|b IH]; intros l; [reflexivity|]. destruct l as [|x l]; [rewrite !skipn_nil; reflexivity|]. apply IH. Qed.
Lemma put_put (b w w' : bytes) n : (n + length w <= length b)%nat ->
  let b1 := firstn n b ++ w ++ skipn (length w) (skipn n b) in
  length b1 = length b /\ firstn (n + length w) b1 ++ w' ++ skipn (n + length w + length w') b1 = firstn n b ++ (w ++ w') ++ skipn (n + length (w ++ w')) b.
Proof.
  intros L b1. assert (L1 : length b1 = length b) by (unfold b1; rewrite !app_length, !skipn_length, firstn_length; lia). split; [exact L1|]. unfold b1.
  rewrite !app_assoc. rewrite firstn_app. replace (n + length w - length (firstn n b ++ w))%nat with O by (rewrite app_length, firstn_length; lia).
  rewrite firstn_O, app_nil_r, firstn_all2 by (rewrite app_length, firstn_length; lia). rewrite <- !app_assoc. do 3 f_equal.
  rewrite app_assoc, skipn_app. rewrite skipn_all2 by (rewrite app_length, firstn_length; lia). cbn [app].
  rewrite !skip_skip. f_equal. rewrite !app_length, firstn_length. lia.
Qed.

Theorem ReadFull_file d : fits d -> forall fuel c b n r, (n <= length b)%nat -> ReadFull fuel (file_reader d) c b n = Some r ->
  exists w e, delivers d c (length b - n) w e /\ (length w <= length b - n)%nat /\ (e = None <-> length w = length b - n)%nat /\
    r = (firstn n b ++ w ++ skipn (n + length w) b, (n + length w)%nat, eof (n + length w) e).
Proof.
  intros F. induction fuel as [|fuel IH]; intros c b n r Ln E; cbn [ReadFull] in E.
  { destruct (Nat.leb_spec (length b) n) as [G|G]; [|discriminate E]. injection E as <-. assert (n = length b) as -> by lia. exists [], None.
    rewrite Nat.sub_diag. split; [constructor|]. cbn [length app]. split; [lia|]. split; [split; reflexivity|]. rewrite Nat.add_0_r, firstn_skipn, read_end_full by lia. reflexivity. }
  destruct (Nat.leb_spec (length b) n) as [G|G].
  { injection E as <-. assert (n = length b) as -> by lia. exists [], None.
    rewrite Nat.sub_diag. split; [constructor|]. cbn [length app]. split; [lia|]. split; [split; reflexivity|]. rewrite Nat.add_0_r, firstn_skipn, read_end_full by lia. reflexivity. }
  unfold file_reader in E at 1. rewrite skipn_length in E. pose proof (F c (length b - n)%nat) as Lw. destruct (d c (length b - n)%nat) as [w e] eqn:D. cbn [fst] in Lw.
  assert (M : (match e with Some EAGAIN => None | _ => e end = None /\ (e = None \/ e = Some EAGAIN)) \/ (exists x, e = Some x /\ x <> EAGAIN)).
  { destruct e as [[]|]; try (right; eexists; split; [reflexivity|discriminate]); left; auto. }
  destruct M as [[M N]|(x & -> & N)].
  - rewrite M in E. destruct (put_put b w [] n ltac:(lia)) as [L1 _].
    apply IH in E; [|rewrite L1; lia]. destruct E as (w' & e' & DD & Lw' & EE & ->). rewrite L1 in *. exists (w ++ w'), e'.
    split; [apply (dl_more d c _ w e); [lia|exact D|exact N|]; replace (length b - n - length w)%nat with (length b - (n + length w))%nat by lia; exact DD|].
    rewrite app_length. split; [lia|]. split; [rewrite EE; lia|]. rewrite (proj2 (put_put b w w' n ltac:(lia))), app_length, Nat.add_assoc. reflexivity.
  - assert (E' : Some (read_end (firstn n b ++ w ++ skipn (length w) (skipn n b)) (n + length w) (Some x)) = Some r) by (destruct x; (contradiction || exact E)). clear E. injection E' as <-.
    exists w, (if (length w =? length b - n)%nat then None else Some x). split; [apply dl_stop; [lia|exact D|exact N]|]. split; [exact Lw|].
    split; [destruct (Nat.eqb_spec (length w) (length b - n)); split; try reflexivity; try lia; discriminate|].
    destruct (put_put b w [] n ltac:(lia)) as [L1 _]. rewrite skip_skip in *.
    destruct (Nat.eqb_spec (length w) (length b - n)) as [Q|Q]; [rewrite read_end_full by (rewrite L1; lia)|rewrite read_end_short by (rewrite L1; lia)]; reflexivity.
Qed.
Theorem ReadFull_ends d : fits d -> progress d -> forall fuel c b n, (n <= length b)%nat -> (length b - n <= fuel)%nat -> exists r, ReadFull fuel (file_reader d) c b n = Some r.
Proof.
  intros F P. induction fuel as [|fuel IH]; intros c b n Ln Lf; cbn [ReadFull]; destruct (Nat.leb_spec (length b) n) as [G|G]; try (eexists; reflexivity); [lia|].
  unfold file_reader at 1. rewrite skipn_length. pose proof (F c (length b - n)%nat) as Lw. pose proof (P c (length b - n)%nat ltac:(lia)) as PP.
  destruct (d c (length b - n)%nat) as [w e] eqn:D. cbn [fst snd] in *. destruct (put_put b w [] n ltac:(lia)) as [L1 _].
  destruct (match e with Some EAGAIN => None | _ => e end) eqn:M; [eexists; reflexivity|]. apply IH; rewrite L1; [lia|].
  destruct PP as [PP|(x & -> & N)]; [destruct w; [contradiction|cbn [length] in *; lia]|]. destruct x; try discriminate M. contradiction.
Qed.
Theorem ReadFull_stuck d : (forall c m, d c m = ([], None) \/ d c m = ([], Some EAGAIN)) -> forall fuel c b n, (n < length b)%nat -> ReadFull fuel (file_reader d) c b n = None.
Proof.
  intros D. induction fuel as [|fuel IH]; intros c b n L; cbn [ReadFull]; replace (length b <=? n)%nat with false by (symmetry; apply Nat.leb_gt; lia); [reflexivity|].
  unfold file_reader at 1. destruct (D c (length (skipn n b))) as [E|E]; rewrite E; cbn [app length skipn]; rewrite firstn_skipn, Nat.add_0_r; apply IH; exact L.
Qed.
Lemma delivers_det d c m w e : delivers d c m w e -> forall w' e', delivers d c m w' e' -> w' = w /\ e' = e.
Proof.
  induction 1 as [c|c m w e w2 e2 P D N DD IH|c m w e P D N]; intros w' e' K.
  - inversion K; subst; try lia. split; reflexivity.
  - inversion K as [|? ? u f u2 ? P' D' N' K2|? ? u f P' D' N']; subst; try lia; rewrite D in D'.
    + injection D' as <- <-. destruct (IH _ _ K2) as [-> ->]. split; reflexivity.
    + injection D' as <- ->. destruct N as [N|N]; [discriminate N|]. injection N as ->. contradiction.
  - inversion K as [|? ? u f u2 ? P' D' N' K2|? ? u f P' D' N']; subst; try lia; rewrite D in D'.
    + injection D' as <- <-. destruct N' as [N'|N']; [discriminate N'|]. injection N' as ->. contradiction.
    + injection D' as <- <-. split; reflexivity.
Qed.

Theorem batched_spec d max : fits d -> (0 < max)%nat -> forall fuel c out, (length out <= fuel)%nat ->
  exists w e, batched fuel d max c out = (w ++ skipn (length w) out, e) /\ (length w <= length out)%nat /\
    (e = None -> length w = length out /\ filled d max c (length out) w) /\ ((exists w', filled d max c (length out) w') -> e = None).
Proof.
  intros F Hm. induction fuel as [|fuel IH]; intros c out L.
  { destruct out; [|cbn in L; lia]. exists [], None. split; [reflexivity|]. split; [reflexivity|]. split; [intros _; split; [reflexivity|constructor]|reflexivity]. }
  destruct out as [|o out]; [exists [], None; split; [reflexivity|]; split; [reflexivity|]; split; [intros _; split; [reflexivity|constructor]|reflexivity]|].
  cbn [batched]. set (b := o :: out) in *. assert (Lb : (0 < length b)%nat) by (cbn; lia). clearbody b. clear o out.
  set (m := Nat.min (length b) max). assert (Hm1 : (0 < m <= length b)%nat) by lia. assert (Lm : length (firstn m b) = m) by (rewrite firstn_length; lia).
  unfold getRandom. rewrite Lm. pose proof (F c m) as Lw. destruct (d c m) as [w e] eqn:D. cbn [fst] in Lw.
  assert (ST : forall x, exists w0 e0, ((w ++ skipn (length w) (firstn m b)) ++ skipn m b, Some x : option rerr) = (w0 ++ skipn (length w0) b, e0) /\ (length w0 <= length b)%nat /\
    (e0 = None -> length w0 = length b /\ filled d max c (length b) w0) /\ e0 = Some x /\ w0 = w).
  { intros x. exists w, (Some x). split; [|split; [lia|split; [discriminate|split; reflexivity]]]. f_equal. rewrite <- app_assoc. f_equal.
    rewrite <- (firstn_skipn m b) at 3. rewrite skipn_app. replace (length w - length (firstn m b))%nat with O by lia. reflexivity. }
  assert (NF : forall w', filled d max c (length b) w' -> e = None /\ length w = m).
  { intros w' K. inversion K as [|? ? u u' P D' Q K2]; subst; [lia|]. fold m in D', Q. rewrite D in D'. injection D' as -> ->. split; [reflexivity|exact Q]. }
  destruct e as [x|].
  - destruct (ST x) as (w0 & e0 & A1 & A2 & A3 & A4 & A5). exists w0, e0. split; [exact A1|]. split; [exact A2|]. split; [exact A3|]. intros (w' & K). destruct (NF w' K) as [C _]. discriminate C.
  - destruct (Nat.eqb_spec (length w) m) as [Q|Q].
    + destruct (IH (S c) (skipn m b)) as (w2 & e2 & E2 & L2 & A2 & B2); [rewrite skipn_length; lia|]. rewrite E2. rewrite skipn_length in *.
      exists (w ++ w2), e2. rewrite (skipn_all2 (firstn m b)), app_nil_r by lia. rewrite app_length.
      split; [rewrite skip_skip, <- app_assoc, Q; reflexivity|]. split; [lia|]. split.
      * intros ->. destruct (A2 eq_refl) as [A3 A4]. split; [lia|]. apply fl_more; [exact Lb|exact D|exact Q|]. rewrite Q. exact A4.
      * intros (w' & K). apply B2. inversion K as [|? ? u u' P D' Q' K2]; subst; [lia|]. fold m in D', Q', K2. rewrite Q' in K2. exists u'. exact K2.
    + destruct (ST ShortRead) as (w0 & e0 & A1 & A2 & A3 & A4 & A5). exists w0, e0. split; [exact A1|]. split; [exact A2|]. split; [exact A3|]. intros (w' & K). destruct (NF w' K) as [_ C]. contradiction.
Qed.

Theorem RandRead_spec s fuel b b' n e : source_ok s -> (0 < length b)%nat -> RandRead fuel s b = Some (b', n, e) ->
  length b' = length b /\ (n <= length b)%nat /\ (e = None <-> n = length b) /\
  (e = None -> answered s (length b) b' \/ (forall w, ~ answered s (length b) w) /\ s_open s = None /\ delivers (s_file s) 0 (length b) b' None) /\
  (forall x, e = Some x -> (forall w, ~ answered s (length b) w) /\
     (s_open s = Some x \/ s_open s = None /\ exists w y, delivers (s_file s) 0 (length b) w (Some y) /\ firstn n b' = w /\ n = length w /\ Some x = eof n (Some y))) /\
  exists k, (k <= length b)%nat /\ skipn k b' = skipn k b.
Proof.
  intros (F1 & F2 & F3) Lb E.
  assert (SLOW : forall b1 r, length b1 = length b -> (exists k, (k <= length b)%nat /\ skipn k b1 = skipn k b) -> (forall w, ~ answered s (length b) w) ->
    match match s_open s with Some e => Some (b1, O, Some e) | None => ReadFull fuel (file_reader (s_file s)) 0 b1 0 end with
    | None => None | Some (b, n, Some e) => Some (read_end b n (Some e)) | Some (b, n, None) => if (length b <=? n)%nat then Some (b, n, None) else None end = Some r ->
    r = (b', n, e) -> length b' = length b /\ (n <= length b)%nat /\ (e = None <-> n = length b) /\
    (e = None -> answered s (length b) b' \/ (forall w, ~ answered s (length b) w) /\ s_open s = None /\ delivers (s_file s) 0 (length b) b' None) /\
    (forall x, e = Some x -> (forall w, ~ answered s (length b) w) /\
     (s_open s = Some x \/ s_open s = None /\ exists w y, delivers (s_file s) 0 (length b) w (Some y) /\ firstn n b' = w /\ n = length w /\ Some x = eof n (Some y))) /\
    exists k, (k <= length b)%nat /\ skipn k b' = skipn k b).
  { intros b1 r L1 (k & Lk & Ek) NA K ->. destruct (s_open s) as [x|] eqn:O.
    - rewrite read_end_short in K by lia. assert (EX : eof 0 (Some x) = Some x) by (destruct x; reflexivity). rewrite EX in K. injection K as <- <- <-.
      split; [exact L1|]. split; [lia|]. split; [split; [discriminate|lia]|]. split; [discriminate|]. split; [|exists k; split; assumption].
      intros x' E'. injection E' as <-. split; [exact NA|]. left. reflexivity.
    - destruct (ReadFull fuel (file_reader (s_file s)) 0 b1 0) as [r|] eqn:R; [|discriminate K].
      apply ReadFull_file in R; [|exact F2|lia]. destruct R as (w & y & D & Lw & Ey & ->). rewrite Nat.sub_0_r, L1 in *. cbn [firstn app Nat.add] in K.
      assert (LP : length (w ++ skipn (length w) b1) = length b) by (rewrite put_length; lia).
      assert (KK : (w ++ skipn (length w) b1, length w, eof (length w) y) = (b', n, e)).
      { destruct y as [y|].
        - assert (length w < length b)%nat by (assert (length w <> length b) by (intros C; apply Ey in C; discriminate C); lia).
          assert (EE : exists y', eof (length w) (Some y) = Some y' /\ eof (length w) (Some y') = Some y').
          { destruct y; try (eexists; split; reflexivity). unfold eof at 1. destruct (0 <? length w)%nat eqn:Z; [exists ErrUnexpectedEOF; split; reflexivity|exists EOF; split; [reflexivity|unfold eof; rewrite Z; reflexivity]]. }
          destruct EE as (y' & E1 & E2). rewrite E1 in *. rewrite read_end_short, E2 in K by lia. congruence.
        - cbn [eof] in K |- *. rewrite LP, (proj1 Ey eq_refl), Nat.leb_refl in K. rewrite (proj1 Ey eq_refl). congruence. }
      injection KK as <- <- <-. split; [exact LP|]. split; [exact Lw|]. assert (EN : eof (length w) y = None <-> y = None) by (destruct y as [[]|]; unfold eof; try destruct (0 <? length w)%nat; split; congruence).
      split; [rewrite EN; exact Ey|]. split; [|split].
      + intros C. apply EN in C. subst y. right. split; [exact NA|]. split; [reflexivity|]. pose proof (proj1 Ey eq_refl) as Q. rewrite (skipn_all2 b1), app_nil_r by lia. exact D.
      + intros x X. split; [exact NA|]. right. split; [reflexivity|]. destruct y as [y|]; [|discriminate X]. exists w, y. split; [exact D|]. split; [rewrite firstn_app, Nat.sub_diag, firstn_O, app_nil_r; apply firstn_all|].
        split; [reflexivity|]. symmetry. exact X.
      + exists (Nat.max k (length w)). split; [lia|]. rewrite skipn_app, skipn_all2 by lia. rewrite skip_skip. cbn [app].
        replace (length w + (Nat.max k (length w) - length w))%nat with (k + (Nat.max k (length w) - k))%nat by lia. rewrite <- skip_skip, Ek, skip_skip. f_equal. lia. }
  unfold RandRead in E. destruct b as [|o b0] eqn:Eb; [cbn in Lb; lia|]. rewrite <- Eb in *. clear o b0 Eb. unfold rand_reader in E.
  destruct (s_max s) as [max|] eqn:M.
  2:{ apply (SLOW b (b', n, e)); [reflexivity|exists O; split; [lia|reflexivity]|intros w (max & C & _); congruence|exact E|reflexivity]. }
  destruct (batched_spec (s_sys s) max F1 (F3 max eq_refl) (length b) 0 b (le_n _)) as (w & e0 & B & L & A & C). rewrite B in E.
  destruct e0 as [x|].
  - apply (SLOW (w ++ skipn (length w) b) (b', n, e)); [apply put_length; exact L| | |exact E|reflexivity].
    + exists (length w). split; [exact L|]. rewrite skipn_app, Nat.sub_diag, skipn_all2 by lia. reflexivity.
    + intros w' (max' & M' & K). assert (max' = max) as -> by congruence. discriminate (C (ex_intro _ w' K)).
  - destruct (A eq_refl) as [Q K]. rewrite (skipn_all2 b), app_nil_r in E by lia. rewrite Nat.leb_refl in E. injection E as <- <- <-. split; [exact Q|]. split; [lia|]. split; [split; [intros _; exact Q|reflexivity]|].
    split; [intros _; left; exists max; split; assumption|]. split; [discriminate|]. exists (length b). split; [lia|]. rewrite !skipn_all2 by lia. reflexivity.
Qed.
Theorem RandRead_ends s b : source_ok s -> progress (s_file s) -> exists r, RandRead (length b) s b = Some r.
Proof.
  intros (F1 & F2 & F3) P. unfold RandRead. destruct b as [|o b0] eqn:Eb; [eexists; reflexivity|]. rewrite <- Eb. clear o b0 Eb.
  assert (SLOW : forall b1, length b1 = length b -> exists r,
    match match s_open s with Some e => Some (b1, O, Some e) | None => ReadFull (length b) (file_reader (s_file s)) 0 b1 0 end with
    | None => None | Some (b, n, Some e) => Some (read_end b n (Some e)) | Some (b, n, None) => if (length b <=? n)%nat then Some (b, n, None) else None end = Some r).
  { intros b1 L1. destruct (s_open s); [eexists; reflexivity|]. destruct (ReadFull_ends _ F2 P (length b) 0 b1 0) as (r & R); [lia|lia|]. rewrite R.
    apply ReadFull_file in R; [|exact F2|lia]. destruct R as (w & y & _ & Lw & Ey & ->). rewrite Nat.sub_0_r in *. cbn [firstn app Nat.add].
    destruct (eof (length w) y) eqn:EE; [eexists; reflexivity|]. assert (y = None) as -> by (destruct y as [[]|]; unfold eof in EE; try destruct (0 <? length w)%nat; congruence).
    rewrite put_length by lia. rewrite (proj1 Ey eq_refl), Nat.leb_refl. eexists. reflexivity. }
  unfold rand_reader. destruct (s_max s) as [max|] eqn:M; [|apply SLOW; reflexivity].
  destruct (batched_spec (s_sys s) max F1 (F3 max eq_refl) (length b) 0 b (le_n _)) as (w & e0 & B & L & _). rewrite B.
  destruct e0 as [x|]; [apply SLOW, put_length; exact L|]. rewrite Nat.leb_refl. eexists. reflexivity.
Qed.
Lemma zeros_prefix b' m k : length b' = m -> (k <= m)%nat -> skipn k b' = skipn k (repeat x00 m) -> b' = firstn k b' ++ repeat x00 (m - k).
Proof.
  intros L K E. rewrite <- (firstn_skipn k b') at 1. f_equal. rewrite E. replace m with (k + (m - k))%nat at 1 by lia. rewrite repeat_app, skipn_app, skipn_all2 by (rewrite repeat_length; lia).
  rewrite repeat_length, Nat.sub_diag. reflexivity.
Qed.
