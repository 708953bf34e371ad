(** GoStrLitFacts.v - the literal TrimSpace and Fields of GoStrLit.v give what [GoStr.TrimSpace] and
    [GoStr.Fields] give. *)
From Verif Require Import Base BaseFacts GoStr GoStrFacts Bip32 Bip32RegFacts Bip32PathFacts SpecPath SpecText Bip44 SpecCoins Bip44Facts Bip44MdFacts GoStrLit.
From Coq Require Import ZifyBool ZifyNat ZifyN.
Ltac Zify.zify_post_hook ::= Z.div_mod_to_equations.

Lemma rune_start_cont b : rune_start b = negb (cont b).
Proof. destruct b; reflexivity. Qed.

Lemma skipn_last (s : bytes) b : skipn (length (s ++ [b]) - 1) (s ++ [b]) = [b].
Proof. rewrite app_length. cbn [length]. replace (length s + 1 - 1)%nat with (length s) by lia. rewrite skipn_app, skipn_all, Nat.sub_diag. reflexivity. Qed.
Lemma nth_last (s : bytes) b : nth (Z.to_nat (Z.of_nat (length (s ++ [b])) - 1)) (s ++ [b]) x00 = b.
Proof. rewrite app_length. cbn [length]. rewrite app_nth2 by lia. replace (_ - _)%nat with O by lia. reflexivity. Qed.
Lemma decode_one b : decode_rune [b] = if Zb b <? 128 then (Zb b, 1%nat) else (65533, 1%nat).
Proof. unfold decode_rune. destruct (Zb b <? 128); [reflexivity|]. destruct (in_rng 194 223 b), (in_rng 224 239 b), (in_rng 240 244 b); reflexivity. Qed.

Lemma look_back_le f s st lim : look_back f s st lim <= st.
Proof. revert st; induction f as [|f IH]; intros st; cbn [look_back]; [lia|]. destruct (st <? lim); [lia|]. destruct (rune_start _); [lia|]. specialize (IH (st - 1)). lia. Qed.

(** What DecodeLastRune gives is the forward decoding of a suffix that it takes up entirely. *)
Lemma decode_last_spec p : p <> [] ->
  (1 <= snd (decode_last_rune p) <= length p)%nat /\
  decode_rune (skipn (length p - snd (decode_last_rune p)) p) = decode_last_rune p.
Proof.
  intros Hp. destruct (exists_last Hp) as (q & b & ->).
  set (p := q ++ [b]) in *. assert (Ln : (1 <= length p)%nat) by (unfold p; rewrite app_length; cbn; lia).
  unfold decode_last_rune. cbv zeta. replace (Z.of_nat (length p) =? 0) with false by lia.
  pose proof (nth_last q b) as NL. fold p in NL. rewrite NL.
  assert (SL : skipn (length p - 1) p = [b]) by apply skipn_last.
  destruct (Zb b <? 128) eqn:Eb.
  - cbn [snd]. split; [lia|]. rewrite SL, decode_one, Eb. reflexivity.
  - set (lim := if Z.of_nat (length p) - 4 <? 0 then 0 else Z.of_nat (length p) - 4).
    pose proof (look_back_le 4 p (Z.of_nat (length p) - 2) lim) as LB.
    set (st0 := look_back 4 p (Z.of_nat (length p) - 2) lim) in *.
    set (st := if st0 <? 0 then 0 else st0).
    assert (Hst : 0 <= st < Z.of_nat (length p)) by (unfold st; destruct (st0 <? 0) eqn:E; lia).
    assert (Hne : skipn (Z.to_nat st) p <> []) by (intros E; assert (X := f_equal (@length byte) E); rewrite skipn_length in X; cbn in X; lia).
    pose proof (decode_rune_width _ Hne) as W. rewrite skipn_length in W.
    destruct (decode_rune (skipn (Z.to_nat st) p)) as [r size] eqn:Ed. cbn [snd] in W.
    destruct (st + Z.of_nat size =? Z.of_nat (length p)) eqn:Es.
    + cbn [snd]. split; [lia|]. replace (length p - size)%nat with (Z.to_nat st) by lia. exact Ed.
    + cbn [snd]. split; [lia|]. rewrite SL, decode_one, Eb. reflexivity.
Qed.

(** The encodings of white space: a start byte followed by continuation bytes. *)
(** In proofs; for bip44/script.go:30-34, bip39/bip39.go:340. *)
Definition enc_ok (c : bytes) : bool :=
  match c with
  | [] => false
  | a :: t => negb (cont a) && forallb cont t && (length t <? 4)%nat && (negb (Nat.eqb (length t) 0) || (Zb a <? 128))
              && (snd (decode_rune c) =? length c)%nat && is_space (fst (decode_rune c))
  end.
Lemma space_enc_ok c : In c space_chars -> enc_ok c = true.
Proof. revert c. apply forallb_forall. vm_compute. reflexivity. Qed.

Lemma nth_app_z (q c : bytes) k : 0 <= k -> nth (Z.to_nat (Z.of_nat (length q) + k)) (q ++ c) x00 = nth (Z.to_nat k) c x00.
Proof. intros H. rewrite app_nth2 by lia. f_equal. lia. Qed.
Lemma skipn_app_len (q c : bytes) : skipn (Z.to_nat (Z.of_nat (length q))) (q ++ c) = c.
Proof. rewrite Nat2Z.id, skipn_app, skipn_all, Nat.sub_diag. reflexivity. Qed.
Lemma look_back_S f s st lim : look_back (S f) s st lim =
  if st <? lim then st else if rune_start (nth (Z.to_nat st) s x00) then st else look_back f s (st - 1) lim.
Proof. reflexivity. Qed.

Lemma decode_last_space q c : enc_ok c = true -> decode_last_rune (q ++ c) = (fst (decode_rune c), length c).
Proof.
  destruct c as [|a t]; [discriminate|]. unfold enc_ok. intros H.
  repeat (apply andb_prop in H as [H ?]).
  rename H into Ha. rename H4 into Ht. rename H3 into Hl. rename H2 into H1a. rename H1 into Hw. rename H0 into Hsp.
  apply Nat.eqb_eq in Hw. apply Nat.ltb_lt in Hl.
  assert (Hd : decode_rune (a :: t) = (fst (decode_rune (a :: t)), length (a :: t))) by (rewrite <- Hw; destruct (decode_rune (a :: t)); reflexivity).
  unfold decode_last_rune. cbv zeta. rewrite app_length.
  replace (Z.of_nat (length q + length (a :: t)) =? 0) with false by (cbn [length]; lia).
  set (lim := if Z.of_nat (length q + length (a :: t)) - 4 <? 0 then 0 else Z.of_nat (length q + length (a :: t)) - 4).
  assert (Hlim : lim <= Z.of_nat (length q)) by (unfold lim; cbn [length]; destruct (_ <? 0) eqn:E; lia).
  destruct t as [|b [|c [|d [|e t]]]]; [| | | |cbn in Hl; lia].
  - cbn [length] in *. replace (Z.of_nat (length q + 1) - 1) with (Z.of_nat (length q) + 0) by lia.
    rewrite nth_app_z by lia. change (nth (Z.to_nat 0) [a] x00) with a. cbn in H1a. rewrite H1a.
    rewrite decode_one, H1a. reflexivity.
  - cbn [length] in *. replace (Z.of_nat (length q + 2) - 1) with (Z.of_nat (length q) + 1) by lia.
    rewrite nth_app_z by lia. change (nth (Z.to_nat 1) [a; b] x00) with b. cbn [forallb] in Ht. apply andb_prop in Ht as [Hb _].
    replace (Zb b <? 128) with false by (unfold cont, in_rng in Hb; lia).
    replace (Z.of_nat (length q + 2) - 2) with (Z.of_nat (length q) + 0) by lia.
    rewrite look_back_S. replace (_ <? lim) with false by lia. rewrite nth_app_z by lia. change (nth (Z.to_nat 0) [a; b] x00) with a.
    rewrite rune_start_cont, Ha. rewrite Z.add_0_r. replace (Z.of_nat (length q) <? 0) with false by lia.
    rewrite skipn_app_len, Hd. replace (_ =? _) with true by lia. reflexivity.
  - cbn [length] in *. replace (Z.of_nat (length q + 3) - 1) with (Z.of_nat (length q) + 2) by lia.
    rewrite nth_app_z by lia. change (nth (Z.to_nat 2) [a; b; c] x00) with c. cbn [forallb] in Ht.
    apply andb_prop in Ht as [Hb Ht]. apply andb_prop in Ht as [Hc _].
    replace (Zb c <? 128) with false by (unfold cont, in_rng in Hc; lia).
    replace (Z.of_nat (length q + 3) - 2) with (Z.of_nat (length q) + 1) by lia.
    rewrite look_back_S. replace (_ <? lim) with false by lia. rewrite nth_app_z by lia. change (nth (Z.to_nat 1) [a; b; c] x00) with b.
    rewrite rune_start_cont, Hb. cbn [negb]. replace (Z.of_nat (length q) + 1 - 1) with (Z.of_nat (length q) + 0) by lia.
    rewrite look_back_S. replace (_ <? lim) with false by lia. rewrite nth_app_z by lia. change (nth (Z.to_nat 0) [a; b; c] x00) with a.
    rewrite rune_start_cont, Ha. rewrite Z.add_0_r. replace (Z.of_nat (length q) <? 0) with false by lia.
    rewrite skipn_app_len, Hd. replace (_ =? _) with true by lia. reflexivity.
  - cbn [length] in *. replace (Z.of_nat (length q + 4) - 1) with (Z.of_nat (length q) + 3) by lia.
    rewrite nth_app_z by lia. change (nth (Z.to_nat 3) [a; b; c; d] x00) with d. cbn [forallb] in Ht.
    apply andb_prop in Ht as [Hb Ht]. apply andb_prop in Ht as [Hc Ht]. apply andb_prop in Ht as [Hdd _].
    replace (Zb d <? 128) with false by (unfold cont, in_rng in Hdd; lia).
    replace (Z.of_nat (length q + 4) - 2) with (Z.of_nat (length q) + 2) by lia.
    rewrite look_back_S. replace (_ <? lim) with false by lia. rewrite nth_app_z by lia. change (nth (Z.to_nat 2) [a; b; c; d] x00) with c.
    rewrite rune_start_cont, Hc. cbn [negb]. replace (Z.of_nat (length q) + 2 - 1) with (Z.of_nat (length q) + 1) by lia.
    rewrite look_back_S. replace (_ <? lim) with false by lia. rewrite nth_app_z by lia. change (nth (Z.to_nat 1) [a; b; c; d] x00) with b.
    rewrite rune_start_cont, Hb. cbn [negb]. replace (Z.of_nat (length q) + 1 - 1) with (Z.of_nat (length q) + 0) by lia.
    rewrite look_back_S. replace (_ <? lim) with false by lia. rewrite nth_app_z by lia. change (nth (Z.to_nat 0) [a; b; c; d] x00) with a.
    rewrite rune_start_cont, Ha. rewrite Z.add_0_r. replace (Z.of_nat (length q) <? 0) with false by lia.
    rewrite skipn_app_len, Hd. replace (_ =? _) with true by lia. reflexivity.
Qed.

(** ** Right end *)
(** In proofs; for bip44/script.go:30-34, bip39/bip39.go:340. *)
Definition cut_right (cs : list (bytes * bool)) : bytes := concat (map fst (rev (drop_spaces (rev cs)))).
Lemma cut_right_space cs c : cut_right (cs ++ [(c, true)]) = cut_right cs.
Proof. unfold cut_right. rewrite rev_app_distr. reflexivity. Qed.
Lemma cut_right_keep cs c : cut_right (cs ++ [(c, false)]) = concat (map fst (cs ++ [(c, false)])).
Proof. unfold cut_right. rewrite rev_app_distr. cbn [rev app drop_spaces]. cbn [rev]. rewrite rev_involutive. reflexivity. Qed.
Lemma TrimSpace_cut s : TrimSpace s = cut_right (drop_spaces (runes_of s)).
Proof. reflexivity. Qed.

(** In proofs; for bip44/script.go:30-34, bip39/bip39.go:340. *)
Definition fresh (t : bytes) : Prop := match t with [] => True | b :: _ => noncont b end.

Lemma runes_space_snoc q c : In c space_chars -> runes_of (q ++ c) = runes_of q ++ [(c, true)] /\ (forall t, fresh (c ++ t)).
Proof.
  intros Hc. pose proof (space_enc_ok c Hc) as Ho. destruct c as [|a t]; [discriminate|].
  assert (Ho' := Ho). unfold enc_ok in Ho. repeat (apply andb_prop in Ho as [Ho ?]).
  assert (Hn : noncont a).
  { unfold noncont. unfold cont, in_rng in Ho. pose proof (Zb_range a). lia. }
  split; [|intros u; exact Hn]. rewrite runes_of_app by exact Hn. f_equal. rewrite runes_of_cons by discriminate.
  apply Nat.eqb_eq in H0. rewrite H0, H, firstn_all, skipn_all. reflexivity.
Qed.

Lemma last_index_ok f : forall s p t, (length p <= f)%nat -> s = p ++ t -> fresh t ->
  match last_index_nonspace f s (length p) with
  | None => cut_right (runes_of p) = []
  | Some i => (i < length p)%nat /\ firstn (i + snd (decode_rune (skipn i s))) s = cut_right (runes_of p)
  end.
Proof.
  induction f as [|f IH]; intros s p t Hf Hs Ht.
  - destruct p; [|cbn in Hf; lia]. reflexivity.
  - destruct (list_eq_dec Byte.byte_eq_dec p []) as [->|Hp]; [reflexivity|].
    assert (Hl : length p <> O) by (destruct p; [now elim Hp|discriminate]).
    cbn [last_index_nonspace]. destruct (length p) as [|n0] eqn:El; [now elim Hl|]. rewrite <- El in *. clear n0 El Hl.
    assert (Fp : firstn (length p) s = p) by (rewrite Hs, firstn_app, firstn_all, Nat.sub_diag; cbn; apply app_nil_r).
    rewrite Fp. destruct (decode_last_spec p Hp) as [Hw Hd].
    destruct (decode_last_rune p) as [r n] eqn:Edl. cbn [snd] in Hw, Hd.
    set (q := firstn (length p - n) p). set (c := skipn (length p - n) p) in *.
    assert (Ep : p = q ++ c) by (symmetry; apply firstn_skipn).
    assert (Lc : length c = n) by (unfold c; rewrite skipn_length; lia).
    assert (Lq : (length p - n)%nat = length q) by (unfold q; rewrite firstn_length; lia).
    destruct (is_space r) eqn:Esp.
    + assert (Hc : In c space_chars).
      { destruct c as [|a c']; [cbn in Lc; lia|]. pose proof (decode_space_inv a c') as X. rewrite Hd in X. cbn [fst snd] in X.
        specialize (X Esp). rewrite <- Lc, firstn_all in X. exact X. }
      destruct (runes_space_snoc q c Hc) as [Hr Hfr].
      rewrite Lq. specialize (IH s q (c ++ t)). rewrite Ep, Hr, cut_right_space.
      assert (Lp : length p = (length q + length c)%nat) by (rewrite Ep, app_length; reflexivity).
      assert (IH' := IH ltac:(lia) ltac:(rewrite Hs, Ep, app_assoc; reflexivity) (Hfr t)).
      destruct (last_index_nonspace f s (length q)) as [i|]; [|exact IH']. destruct IH' as [H1 H2]. split; [rewrite app_length; lia|exact H2].
    + split; [lia|]. rewrite Lq.
      assert (Es : skipn (length q) s = c ++ t) by (rewrite Hs, Ep, <- app_assoc, skipn_app, skipn_all, Nat.sub_diag; reflexivity).
      rewrite Es. assert (Hdc : decode_rune (c ++ t) = decode_rune c).
      { destruct t as [|b t]; [rewrite app_nil_r; reflexivity|]. apply decode_rune_app; [destruct c; [cbn in Lc; lia|discriminate]|exact Ht]. }
      rewrite Hdc, Hd. cbn [snd]. replace (length q + n)%nat with (length p) by (rewrite Ep, app_length; lia). rewrite Fp.
      destruct (runes_of p) as [|x l] eqn:Er using rev_ind.
      * pose proof (runes_concat p) as X. rewrite Er in X. cbn in X. symmetry; exact X.
      * clear IHl. destruct x as [c' []].
        -- exfalso. assert (Hin : In (c', true) (runes_of p)) by (rewrite Er; apply in_or_app; right; left; reflexivity).
           apply space_in in Hin. pose proof (space_enc_ok c' Hin) as Ho.
           pose proof (runes_concat p) as X. rewrite Er, map_app, concat_app in X. cbn [map concat fst] in X. rewrite app_nil_r in X.
           pose proof (decode_last_space (concat (map fst l)) c' Ho) as Y. rewrite X, Edl in Y. injection Y as -> _.
           destruct c' as [|a' t']; [discriminate|]. unfold enc_ok in Ho. apply andb_prop in Ho as [_ Ho]. rewrite Ho in Esp. discriminate.
        -- rewrite cut_right_keep, <- Er, runes_concat. reflexivity.
Qed.

Lemma decode_ascii a s : Zb a < 128 -> decode_rune (a :: s) = (Zb a, 1%nat).
Proof. intros H. unfold decode_rune. replace (Zb a <? 128) with true by lia. reflexivity. Qed.

Lemma TrimRightSpace_ok s : TrimRightSpace s = cut_right (runes_of s).
Proof.
  unfold TrimRightSpace. pose proof (last_index_ok (length s) s s [] (le_n _) ltac:(rewrite app_nil_r; reflexivity) I) as H.
  destruct (last_index_nonspace (length s) s (length s)) as [i|]; [|symmetry; exact H]. destruct H as [Hi H].
  destruct (128 <=? Zb (nth i s x00)) eqn:E; [exact H|]. rewrite <- H. f_equal. f_equal.
  assert (X : skipn i s = nth i s x00 :: skipn (S i) s).
  { clear -Hi. revert i Hi. induction s as [|a s IH]; intros i Hi; [cbn in Hi; lia|]. destruct i; [reflexivity|]. cbn [skipn nth]. cbn [length] in Hi. apply IH. lia. }
  rewrite X, decode_ascii by lia. reflexivity.
Qed.

(** ** Left end *)
Lemma trim_left_ok f : forall s, (length s <= f)%nat -> runes_of (trim_left f s) = drop_spaces (runes_of s).
Proof.
  induction f as [|f IH]; intros s Hf; [destruct s; [reflexivity|cbn in Hf; lia]|].
  destruct s as [|a s]; [reflexivity|]. cbn [trim_left].
  pose proof (decode_rune_width (a :: s) ltac:(discriminate)) as W. rewrite (runes_of_cons (a :: s)) by discriminate.
  destruct (decode_rune (a :: s)) as [r w] eqn:Ed. cbn [fst snd] in *. destruct (is_space r) eqn:E.
  - cbn [drop_spaces]. apply IH. rewrite skipn_length. lia.
  - cbn [drop_spaces]. rewrite runes_of_cons by discriminate. rewrite Ed. cbn [fst snd]. rewrite E. reflexivity.
Qed.
Lemma TrimFuncSpace_ok s : TrimFuncSpace s = TrimSpace s.
Proof. unfold TrimFuncSpace. rewrite TrimRightSpace_ok, trim_left_ok by lia. reflexivity. Qed.

Lemma ascii_space_ok a : Zb a < 128 -> is_space (Zb a) = ascii_space a.
Proof. unfold is_space, ascii_space. pose proof (Zb_range a). intros. lia. Qed.
Lemma runes_ascii a s : Zb a < 128 -> runes_of (a :: s) = ([a], ascii_space a) :: runes_of s.
Proof. intros H. rewrite runes_of_cons by discriminate. rewrite decode_ascii by exact H. cbn [fst snd firstn skipn]. rewrite ascii_space_ok by exact H. reflexivity. Qed.

Lemma trim_stop_ok s : trim_stop (rev s) = cut_right (runes_of s).
Proof.
  induction s as [|c s IH] using rev_ind; [reflexivity|]. rewrite rev_app_distr. cbn [rev app trim_stop].
  destruct (128 <=? Zb c) eqn:E.
  - rewrite rev_involutive. apply TrimRightSpace_ok.
  - rewrite runes_of_app by (unfold noncont; lia). rewrite runes_ascii by lia. destruct (ascii_space c).
    + change (runes_of []) with (@nil (bytes * bool)). rewrite cut_right_space. exact IH.
    + change (runes_of []) with (@nil (bytes * bool)). rewrite cut_right_keep, map_app, concat_app, runes_concat. rewrite rev_involutive. reflexivity.
Qed.
Lemma GoTrimSpace_ok s : GoTrimSpace s = TrimSpace s.
Proof.
  induction s as [|c s IH]; [reflexivity|]. cbn [GoTrimSpace]. destruct (128 <=? Zb c) eqn:E; [apply TrimFuncSpace_ok|].
  rewrite TrimSpace_cut, runes_ascii by lia. destruct (ascii_space c) eqn:Es.
  - cbn [drop_spaces]. exact IH.
  - cbn [drop_spaces]. rewrite trim_stop_ok. rewrite runes_ascii, Es by lia. reflexivity.
Qed.

(** ** Fields *)
Lemma sub_grow (s pre r c : bytes) b : s = pre ++ c ++ r -> (b <= length pre)%nat ->
  sub_string s b (length pre + length c) = sub_string s b (length pre) ++ c.
Proof.
  intros -> Hb. unfold sub_string. rewrite !skipn_app. replace (b - length pre)%nat with O by lia. cbn [skipn].
  assert (L : length (skipn b pre) = (length pre - b)%nat) by apply skipn_length.
  rewrite !firstn_app, L. rewrite (firstn_all2 (n := (length pre + length c - b)%nat)) by lia.
  rewrite (firstn_all2 (n := (length pre - b)%nat)) by lia.
  replace (length pre - b - (length pre - b))%nat with O by lia. cbn [firstn]. rewrite app_nil_r. f_equal.
  replace (length pre + length c - b - (length pre - b))%nat with (length c) by lia.
  rewrite firstn_all, Nat.sub_diag. cbn. apply app_nil_r.
Qed.
Lemma sub_nil (s : bytes) b : sub_string s b b = [].
Proof. unfold sub_string. rewrite Nat.sub_diag. reflexivity. Qed.
Lemma sub_length (s : bytes) a b : (a <= b <= length s)%nat -> length (sub_string s a b) = (b - a)%nat.
Proof. intros H. unfold sub_string. rewrite firstn_length, skipn_length. lia. Qed.
Lemma emit_ne x : x <> [] -> emit x = [x].
Proof. destruct x; [intros H; now elim H|reflexivity]. Qed.

Lemma field_spans_ok f : forall s r pre start, (length r < f)%nat -> s = pre ++ r ->
  (match start with Some b => (b < length pre)%nat | None => True end) ->
  map (fun '(a, b) => sub_string s a b) (field_spans f r (length pre) start) =
  group_fields (runes_of r) (match start with Some b => sub_string s b (length pre) | None => [] end).
Proof.
  induction f as [|f IH]; intros s r pre start Hf Hs Hst; [lia|].
  assert (Hcur : forall b, (b < length pre)%nat -> sub_string s b (length pre) <> []).
  { intros b Hb X. apply (f_equal (@length byte)) in X. rewrite sub_length in X by (rewrite Hs, app_length; lia). cbn in X. lia. }
  destruct r as [|a r].
  - cbn [field_spans]. destruct start as [b|]; cbn; [|reflexivity]. rewrite emit_ne by (apply Hcur; exact Hst). reflexivity.
  - cbn [field_spans]. set (r' := a :: r) in *. pose proof (decode_rune_width r' ltac:(discriminate)) as W.
    rewrite (runes_of_cons r') by discriminate. destruct (decode_rune r') as [x w]. cbn [fst snd] in *.
    assert (E : s = (pre ++ firstn w r') ++ skipn w r') by (rewrite <- app_assoc, firstn_skipn; exact Hs).
    assert (L : length (pre ++ firstn w r') = (length pre + w)%nat) by (rewrite app_length, firstn_length; lia).
    assert (Lf : (length (skipn w r') < f)%nat) by (rewrite skipn_length; lia).
    pose proof (fun st => IH s (skipn w r') (pre ++ firstn w r') st Lf E) as J. rewrite L in J.
    assert (G : forall b, (b <= length pre)%nat -> sub_string s b (length pre + w) = sub_string s b (length pre) ++ firstn w r').
    { intros b Hb. rewrite <- (sub_grow s pre (skipn w r') (firstn w r') b); [f_equal; rewrite firstn_length; lia|rewrite firstn_skipn; exact Hs|exact Hb]. }
    destruct (is_space x); cbn [group_fields].
    + destruct start as [b|].
      * cbn [map]. rewrite (J None) by exact I. rewrite emit_ne by (apply Hcur; exact Hst). reflexivity.
      * apply (J None). exact I.
    + destruct start as [b|].
      * rewrite (J (Some b)) by lia. rewrite G by lia. reflexivity.
      * rewrite (J (Some (length pre))) by lia. rewrite G by lia. rewrite sub_nil. reflexivity.
Qed.
Lemma FieldsFuncSpace_ok s : FieldsFuncSpace s = Fields s.
Proof. unfold FieldsFuncSpace, Fields. apply (field_spans_ok (S (length s)) s s [] None); [lia|reflexivity|exact I]. Qed.

Lemma count_fields_ok s : Forall (fun c => Zb c < 128) s -> forall cur,
  length (group_fields (runes_of s) cur) =
  (match cur with [] => 0 | _ => 1 end + count_fields s (match cur with [] => true | _ => false end))%nat.
Proof.
  induction s as [|c s IH]; intros Hs cur; [destruct cur; reflexivity|].
  inversion Hs as [|? ? Hc Hs']; subst. rewrite runes_ascii by exact Hc. cbn [count_fields].
  destruct (ascii_space c); cbn [group_fields].
  - rewrite app_length, (IH Hs' []). destruct cur; cbn; reflexivity.
  - rewrite (IH Hs'). destruct cur; cbn; reflexivity.
Qed.
Lemma lor_high s : forall acc, 0 <= acc -> (128 <=? fold_left (fun acc c => Z.lor acc (Zb c)) s acc) = (128 <=? acc) || existsb (fun c => 128 <=? Zb c) s.
Proof.
  assert (P : forall x, 0 <= x -> (128 <=? x) = negb (x / 128 =? 0)) by (intros x Hx; lia).
  induction s as [|c s IH]; intros acc Ha; cbn [fold_left existsb]; [rewrite orb_false_r; reflexivity|].
  pose proof (Zb_range c) as Hc. rewrite IH by (apply Z.lor_nonneg; lia). rewrite orb_assoc. f_equal.
  rewrite !P by (try apply Z.lor_nonneg; lia).
  assert (D : Z.lor acc (Zb c) / 128 = Z.lor (acc / 128) (Zb c / 128)).
  { change 128 with (2 ^ 7). rewrite <- !Z.shiftr_div_pow2 by lia. apply Z.shiftr_lor. }
  rewrite D. rewrite <- negb_andb. f_equal.
  pose proof (Z.lor_eq_0_iff (acc / 128) (Zb c / 128)) as Q.
  set (u := Z.lor (acc / 128) (Zb c / 128)) in *. clearbody u. clear D IH. set (v := acc / 128) in *. set (w := Zb c / 128) in *. clearbody v w. lia.
Qed.

Lemma skip_ascii_ok s : Forall (fun c => Zb c < 128) s ->
  group_fields (runes_of s) [] = group_fields (runes_of (skipn (skip_ascii s) s)) [] /\
  (skip_ascii s <= length s)%nat /\
  ((skip_ascii s < length s)%nat -> ascii_space (nth (skip_ascii s) s x00) = false).
Proof.
  induction s as [|c s IH]; intros Hs; [cbn; repeat split; lia|]. inversion Hs as [|? ? Hc Hs']; subst.
  cbn [skip_ascii]. destruct (ascii_space c) eqn:E.
  - destruct (IH Hs') as (H1 & H2 & H3). rewrite runes_ascii, E by exact Hc. cbn [group_fields emit app skipn length nth]. repeat split; [exact H1|lia|]. intros H. apply H3. lia.
  - cbn. repeat split; [lia|]. intros _. exact E.
Qed.

Lemma store_ok d m x : store (d ++ repeat [] (S m)) (length d) x = Ret (d ++ x :: repeat [] m).
Proof. induction d as [|y d IH]; cbn; [reflexivity|]. cbn in IH. rewrite IH. reflexivity. Qed.

Lemma skipn_nth (s : bytes) i : (i < length s)%nat -> skipn i s = nth i s x00 :: skipn (S i) s.
Proof. revert i. induction s as [|a s IH]; intros i Hi; [cbn in Hi; lia|]. destruct i; [reflexivity|]. cbn [skipn nth]. cbn [length] in Hi. apply IH. lia. Qed.
Lemma Forall_skipn {A} (P : A -> Prop) n l : Forall P l -> Forall P (skipn n l).
Proof. intros H. rewrite Forall_forall in *. intros x Hx. apply H. rewrite <- (firstn_skipn n l). apply in_or_app. right; exact Hx. Qed.
Lemma skipn_add {A} (l : list A) a b : skipn (a + b) l = skipn b (skipn a l).
Proof. revert l; induction a as [|a IH]; intros l; [reflexivity|]. destruct l; [cbn; rewrite skipn_nil; reflexivity|]. cbn. apply IH. Qed.
Lemma nth_skipn (l : bytes) a b : nth b (skipn a l) x00 = nth (a + b) l x00.
Proof. revert l; induction a as [|a IH]; intros l; [reflexivity|]. destruct l; [cbn; destruct b; reflexivity|]. cbn. apply IH. Qed.

Lemma sub_snoc (s : bytes) b i : (b <= i)%nat -> (i < length s)%nat -> sub_string s b (S i) = sub_string s b i ++ [nth i s x00].
Proof.
  intros Hb Hi. pose proof (sub_grow s (firstn i s) (skipn (S i) s) [nth i s x00] b) as G.
  rewrite firstn_length in G. replace (Nat.min i (length s)) with i in G by lia. cbn [length] in G. rewrite Nat.add_1_r in G.
  apply G; [|exact Hb]. cbn [app]. rewrite <- skipn_nth by exact Hi. symmetry. apply firstn_skipn.
Qed.

Lemma fields_loop_ok f : forall s i fs d,
  Forall (fun c => Zb c < 128) s -> (length s - i < f)%nat -> (fs <= i <= length s)%nat ->
  (fs = i -> (i < length s)%nat -> ascii_space (nth i s x00) = false) ->
  let rest := group_fields (runes_of (skipn i s)) (sub_string s fs i) in
  fields_loop f s i fs (length d) (d ++ repeat [] (length rest)) = Ret (d ++ rest).
Proof.
  induction f as [|f IH]; intros s i fs d Hs Hf Hi Hn rest; [lia|]. cbn [fields_loop].
  destruct (i <? length s)%nat eqn:El.
  - apply Nat.ltb_lt in El. assert (Hc : Zb (nth i s x00) < 128) by (rewrite Forall_forall in Hs; apply Hs, nth_In; exact El).
    subst rest. rewrite (skipn_nth s i El), runes_ascii by exact Hc. destruct (ascii_space (nth i s x00)) eqn:Ea; cbn [negb group_fields].
    + assert (Hlt : (fs < i)%nat) by (destruct (Nat.eq_dec fs i) as [Q|]; [specialize (Hn Q El); rewrite Hn in Ea; discriminate|lia]).
      assert (Hne : sub_string s fs i <> []) by (intros X; apply (f_equal (@length byte)) in X; rewrite sub_length in X by lia; cbn in X; lia).
      rewrite emit_ne by exact Hne. cbn [app length]. rewrite store_ok. cbn [bind].
      destruct (skip_ascii_ok (skipn (S i) s) (Forall_skipn _ _ _ Hs)) as (H1 & H2 & H3). rewrite skipn_length in H2, H3.
      rewrite H1. set (k := skip_ascii (skipn (S i) s)) in *. rewrite <- skipn_add.
      specialize (IH s (S i + k)%nat (S i + k)%nat (d ++ [sub_string s fs i]) Hs ltac:(lia) ltac:(lia)).
      rewrite sub_nil in IH. cbv zeta in IH. rewrite app_length, <- !app_assoc in IH. cbn [length] in IH. rewrite Nat.add_1_r in IH.
      apply IH. intros _ Hl. rewrite <- nth_skipn. apply H3. lia.
    + rewrite <- sub_snoc by lia. apply IH; [exact Hs|lia|lia|intros; lia].
  - apply Nat.ltb_ge in El. assert (i = length s) by lia. subst i. subst rest. rewrite skipn_all. change (runes_of []) with (@nil (bytes * bool)). cbn [group_fields].
    destruct (fs <? length s)%nat eqn:Ef.
    + apply Nat.ltb_lt in Ef.
      assert (Hne : sub_string s fs (length s) <> []) by (intros X; apply (f_equal (@length byte)) in X; rewrite sub_length in X by lia; cbn in X; lia).
      rewrite emit_ne by exact Hne. cbn [length]. apply store_ok.
    + apply Nat.ltb_ge in Ef. assert (fs = length s) by lia. subst fs. rewrite sub_nil. reflexivity.
Qed.

Lemma GoFields_ok s : GoFields s = Ret (Fields s).
Proof.
  unfold GoFields. cbv zeta. rewrite lor_high by lia. cbn [orb]. change (128 <=? 0) with false. cbn [orb].
  destruct (existsb (fun c => 128 <=? Zb c) s) eqn:E; [rewrite FieldsFuncSpace_ok; reflexivity|].
  assert (Hs : Forall (fun c => Zb c < 128) s).
  { apply Forall_forall. intros c Hc. destruct (128 <=? Zb c) eqn:Q; [|lia]. assert (X : existsb (fun c => 128 <=? Zb c) s = true) by (apply existsb_exists; exists c; auto). rewrite X in E. discriminate. }
  destruct (skip_ascii_ok s Hs) as (H1 & H2 & H3).
  assert (Hc : count_fields s true = length (group_fields (runes_of (skipn (skip_ascii s) s)) [])) by (rewrite <- H1, (count_fields_ok s Hs []); reflexivity).
  rewrite Hc. unfold Fields. rewrite H1.
  pose proof (fields_loop_ok (S (length s)) s (skip_ascii s) (skip_ascii s) [] Hs ltac:(lia) ltac:(lia) (fun _ => H3)) as L.
  cbv zeta in L. rewrite sub_nil in L. exact L.
Qed.

(** ** Split, Contains, ReplaceAll *)
Lemma Index_le s sub i : Index s sub = Some i -> is_prefix sub (skipn i s) = true /\ (i + length sub <= length s)%nat.
Proof.
  assert (P : forall p t, is_prefix p t = true -> (length p <= length t)%nat).
  { induction p as [|x p IH]; intros [|y t] H; cbn in *; try lia; try discriminate. apply andb_prop in H as [_ H]. apply IH in H. lia. }
  revert i. induction s as [|c s IH]; intros i; cbn [Index].
  - destruct (is_prefix sub []) eqn:E; [|discriminate]. intros H. injection H as <-. split; [exact E|]. apply P in E. cbn in *. lia.
  - destruct (is_prefix sub (c :: s)) eqn:E.
    + intros H. injection H as <-. split; [exact E|]. apply P in E. cbn in *. lia.
    + destruct (Index s sub) as [j|]; [|discriminate]. cbn. intros H. injection H as <-. destruct (IH j eq_refl) as [H1 H2]. cbn. split; [exact H1|lia].
Qed.
Lemma Contains_ok s sub : GoContains s sub = Contains s sub.
Proof.
  unfold GoContains. induction s as [|c s IH]; cbn [Index Contains].
  - destruct (is_prefix sub []); reflexivity.
  - destruct (is_prefix sub (c :: s)); [reflexivity|]. rewrite <- IH. destruct (Index s sub); reflexivity.
Qed.
Lemma ContainsB_ok s c : GoContains s [c] = ContainsB c s.
Proof.
  rewrite Contains_ok. induction s as [|x s IH]; [reflexivity|]. cbn [Contains is_prefix ContainsB existsb].
  rewrite andb_true_r. unfold ContainsB in IH. rewrite IH. reflexivity.
Qed.

(** The pieces between the occurrences. *)
(** In proofs; for bip44/script.go:30-34, bip39/bip39.go:340. *)
Fixpoint pieces (f : nat) (s sep : bytes) : list bytes :=
  match f with
  | O => [s]
  | S f' => match Index s sep with None => [s] | Some m => firstn m s :: pieces f' (skipn (m + length sep) s) sep end
  end.
Lemma pieces_count f s sep : length (pieces f s sep) = S (Count f s sep).
Proof. revert s; induction f as [|f IH]; intros s; [reflexivity|]. cbn [pieces Count]. destruct (Index s sep); [cbn [length]; rewrite IH|]; reflexivity. Qed.
Lemma Count_le f s sep : sep <> [] -> (Count f s sep <= length s)%nat.
Proof.
  intros Hs. assert (1 <= length sep)%nat by (destruct sep; [now elim Hs|cbn; lia]). revert s; induction f as [|f IH]; intros s; [cbn; lia|]. cbn [Count].
  destruct (Index s sep) as [i|] eqn:E; [|lia]. apply Index_le in E as [_ E]. specialize (IH (skipn (i + length sep) s)). rewrite skipn_length in IH. lia.
Qed.
Lemma firstn_done (d : list bytes) x : firstn (S (length d)) (d ++ [x]) = d ++ [x].
Proof. replace (S (length d)) with (length (d ++ [x])) by (rewrite app_length; cbn; lia). apply firstn_all. Qed.
Lemma split_loop_ok sep f : forall s d,
  split_loop (Count f s sep) s sep (length d) (d ++ repeat [] (S (Count f s sep))) = Ret (d ++ pieces f s sep).
Proof.
  induction f as [|f IH]; intros s d.
  - cbn [Count split_loop pieces]. rewrite store_ok. cbn [bind repeat]. rewrite firstn_done. reflexivity.
  - cbn [Count pieces]. destruct (Index s sep) as [m|] eqn:E.
    + cbn [split_loop]. rewrite E. rewrite store_ok. cbn [bind].
      specialize (IH (skipn (m + length sep) s) (d ++ [firstn m s])). rewrite app_length, <- !app_assoc in IH. cbn [length] in IH. rewrite Nat.add_1_r in IH. exact IH.
    + cbn [split_loop]. rewrite store_ok. cbn [bind repeat]. rewrite firstn_done. reflexivity.
Qed.
Lemma GoSplit_pieces s sep : sep <> [] -> GoSplit s sep = Ret (pieces (length s) s sep).
Proof.
  intros Hs. unfold GoSplit. cbv zeta. pose proof (Count_le (length s) s sep Hs) as C.
  replace (length s + 1 <? Count (length s) s sep + 1)%nat with false by lia.
  rewrite Nat.add_sub, Nat.add_1_r. apply (split_loop_ok sep (length s) s []).
Qed.

Lemma beqb_sym a b : Byte.eqb a b = Byte.eqb b a.
Proof. destruct (Byte.eqb b a) eqn:E; [apply Byte.byte_dec_bl in E; subst; apply Byte.byte_dec_lb; reflexivity|]. destruct (Byte.eqb a b) eqn:F; [|reflexivity]. apply Byte.byte_dec_bl in F. subst. rewrite Byte.byte_dec_lb in E by reflexivity. discriminate. Qed.
Lemma Split_step c s : Split c s = match Index s [c] with None => [s] | Some m => firstn m s :: Split c (skipn (m + 1) s) end.
Proof.
  induction s as [|x s IH]; [reflexivity|]. cbn [Split Index is_prefix]. rewrite andb_true_r, (beqb_sym c x).
  destruct (Byte.eqb x c); [reflexivity|]. rewrite IH. destruct (Index s [c]) as [m|]; reflexivity.
Qed.
Lemma pieces_Split c f : forall s, (length s <= f)%nat -> pieces f s [c] = Split c s.
Proof.
  induction f as [|f IH]; intros s Hf; [destruct s; [reflexivity|cbn in Hf; lia]|]. cbn [pieces]. rewrite Split_step.
  destruct (Index s [c]) as [m|] eqn:E; [|reflexivity]. cbn [length]. rewrite IH; [reflexivity|]. apply Index_le in E as [_ E]. cbn in E. rewrite skipn_length. lia.
Qed.
Lemma GoSplit_ok s c : GoSplit s [c] = Ret (Split c s).
Proof. rewrite GoSplit_pieces by discriminate. rewrite pieces_Split by lia. reflexivity. Qed.

Lemma SplitBar_step s : SplitBar s = match Index s [x7c; x20] with None => [s] | Some m => firstn m s :: SplitBar (skipn (m + 2) s) end.
Proof.
  induction s as [|x s IH]; [reflexivity|]. destruct s as [|y s].
  - cbn [SplitBar Index is_prefix]. rewrite andb_false_r. reflexivity.
  - cbn [SplitBar]. change (Index (x :: y :: s) [x7c; x20]) with (if is_prefix [x7c; x20] (x :: y :: s) then Some O else option_map S (Index (y :: s) [x7c; x20])).
    cbn [is_prefix]. rewrite andb_true_r, (beqb_sym x7c x), (beqb_sym x20 y). destruct (Byte.eqb x x7c && Byte.eqb y x20); [reflexivity|].
    change (match SplitBar (y :: s) with [] => [[x]] | w :: ws => (x :: w) :: ws end = match option_map S (Index (y :: s) [x7c; x20]) with None => [x :: y :: s] | Some m => firstn m (x :: y :: s) :: SplitBar (skipn (m + 2) (x :: y :: s)) end).
    rewrite IH. destruct (Index (y :: s) [x7c; x20]) as [m|]; reflexivity.
Qed.
Lemma pieces_SplitBar f : forall s, (length s <= f)%nat -> pieces f s [x7c; x20] = SplitBar s.
Proof.
  induction f as [|f IH]; intros s Hf; [destruct s; [reflexivity|cbn in Hf; lia]|]. cbn [pieces]. rewrite SplitBar_step.
  destruct (Index s [x7c; x20]) as [m|] eqn:E; [|reflexivity]. cbn [length]. rewrite IH; [reflexivity|]. apply Index_le in E as [_ E]. cbn in E. rewrite skipn_length. lia.
Qed.
Lemma GoSplitBar_ok s : GoSplit s (B "| ") = Ret (SplitBar s).
Proof. change (B "| ") with [x7c; x20]. rewrite GoSplit_pieces by discriminate. rewrite pieces_SplitBar by lia. reflexivity. Qed.

Lemma RemoveB_step c s : RemoveB c s = match Index s [c] with None => s | Some m => firstn m s ++ RemoveB c (skipn (m + 1) s) end.
Proof.
  induction s as [|x s IH]; [reflexivity|]. cbn [RemoveB filter Index is_prefix]. rewrite andb_true_r. unfold RemoveB in IH.
  destruct (Byte.eqb c x); [reflexivity|]. cbn [negb]. rewrite IH. destruct (Index s [c]) as [m|]; reflexivity.
Qed.
Lemma replace_loop_ok c f : forall s, (length s <= f)%nat -> replace_loop (Count f s [c]) s [c] [] = Ret (RemoveB c s).
Proof.
  induction f as [|f IH]; intros s Hf; [destruct s; [reflexivity|cbn in Hf; lia]|]. cbn [Count]. rewrite RemoveB_step.
  destruct (Index s [c]) as [m|] eqn:E; [|reflexivity]. cbn [replace_loop]. rewrite E. cbn [length]. rewrite IH; [reflexivity|].
  apply Index_le in E as [_ E]. cbn in E. rewrite skipn_length. lia.
Qed.
Lemma GoReplaceAll_ok s c : GoReplaceAll s [c] [] = Ret (RemoveB c s).
Proof.
  unfold GoReplaceAll. pose proof (replace_loop_ok c (length s) s (le_n _)) as H. destruct (Count (length s) s [c]); exact H.
Qed.

(** ** Atoi *)
Lemma digits_split s : exists ds r, s = ds ++ r /\ forallb is_digit ds = true /\ match r with [] => True | c :: _ => is_digit c = false end.
Proof.
  induction s as [|c s (ds & r & E & H1 & H2)]; [exists [], []; auto|].
  destruct (is_digit c) eqn:Ec.
  - exists (c :: ds), r. cbn. rewrite E, Ec, H1. auto.
  - exists [], (c :: s). auto.
Qed.
Lemma parse_uint_split m ds r : 9 <= m < 2 ^ 64 -> all_digits ds -> match r with [] => True | c :: _ => is_digit c = false end ->
  forall n, 0 <= n <= m ->
  parse_uint m (ds ++ r) n =
  let v := fold_left (fun a c => a * 10 + (Zb c - 48)) ds n in
  if v >? m then (m, Some ErrRange) else match r with [] => (v, None) | _ => (0, Some ErrSyntax) end.
Proof.
  change (2 ^ 64) with 18446744073709551616. intros Hm Hs Hr. revert Hs. induction ds as [|c s IH]; intros Hs n Hn; cbn [app fold_left]; cbv zeta.
  - assert (n >? m = false) as -> by lia. destruct r as [|c r]; [reflexivity|]. cbn [parse_uint]. rewrite Hr. reflexivity.
  - cbn [parse_uint]. unfold all_digits in Hs. cbn [forallb] in Hs. apply andb_true_iff in Hs as [Hc Hs]. rewrite Hc. cbn [negb]. apply is_digit_range in Hc.
    pose proof (fold_dec_ge s (n * 10 + (Zb c - 48)) ltac:(lia) Hs) as G. specialize (IH Hs). cbv zeta in IH.
    set (fd := fold_left (fun a c0 => a * 10 + (Zb c0 - 48)) s) in *.
    destruct (n >=? cutoff) eqn:E1.
    { unfold cutoff in E1. assert (fd (n * 10 + (Zb c - 48)) >? m = true) as -> by lia. reflexivity. }
    unfold cutoff in E1. rewrite (Z.mod_small (n * 10)) by lia.
    destruct (n * 10 + (Zb c - 48) >? m) eqn:E2.
    + assert (fd (n * 10 + (Zb c - 48)) >? m = true) as -> by lia.
      destruct (Z_lt_dec (n * 10 + (Zb c - 48)) 18446744073709551616) as [L|L].
      * rewrite Z.mod_small by lia. rewrite E2, orb_true_r. reflexivity.
      * assert ((n * 10 + (Zb c - 48)) mod 18446744073709551616 <? n * 10 = true) as ->; [|reflexivity].
        rewrite <- (Z.mod_unique (n * 10 + (Zb c - 48)) 18446744073709551616 1 (n * 10 + (Zb c - 48) - 18446744073709551616)); lia.
    + rewrite (Z.mod_small (n * 10 + _)) by lia. rewrite E2. assert (n * 10 + (Zb c - 48) <? n * 10 = false) as -> by lia. cbn [orb].
      rewrite IH by lia. reflexivity.
Qed.

(** What Atoi makes of a sign, digits and a rest. *)
(** In proofs; for bip44/script.go:30-34, bip39/bip39.go:340. *)
Definition sign_of (s : bytes) : bytes := match s with c :: _ => if Byte.eqb c x2d || Byte.eqb c x2b then [c] else [] | [] => [] end.
(** In proofs; for bip44/script.go:30-34, bip39/bip39.go:340. *)
Definition after_sign (s : bytes) : bytes := match s with c :: r => if Byte.eqb c x2d || Byte.eqb c x2b then r else s | [] => [] end.
Lemma sign_split s : s = sign_of s ++ after_sign s.
Proof. destruct s as [|c s]; [reflexivity|]. cbn. destruct (_ || _); reflexivity. Qed.

Lemma Atoi_split s ds r : after_sign s = ds ++ r -> all_digits ds -> match r with [] => True | c :: _ => is_digit c = false end ->
  Atoi s =
  if dec_val ds >? 18446744073709551615 then (if negative s then - (MaxInt + 1) else MaxInt, Some ErrRange)
  else match ds, r with
       | _ :: _, [] =>
         if negative s then (if dec_val ds >? MaxInt + 1 then (- (MaxInt + 1), Some ErrRange) else (- dec_val ds, None))
         else (if dec_val ds >? MaxInt then (MaxInt, Some ErrRange) else (dec_val ds, None))
       | _, _ => (0, Some ErrSyntax)
       end.
Proof.
  intros Ea Hd Hr. unfold Atoi. destruct s as [|c s].
  { cbn in Ea. symmetry in Ea. apply app_eq_nil in Ea as [-> ->]. reflexivity. }
  assert (Ed : (if Byte.eqb c x2d || Byte.eqb c x2b then s else c :: s) = ds ++ r) by exact Ea.
  cbn [negative]. destruct (length (c :: s) <? 19)%nat eqn:El.
  - cbv zeta. rewrite Ed. apply Nat.ltb_lt in El. assert (Ll : (length (ds ++ r) <= 18)%nat) by (rewrite <- Ed; destruct (_ || _); cbn [length] in *; lia).
    pose proof (dec_val_18 ds Hd ltac:(rewrite app_length in Ll; lia)) as R. change (10 ^ 18) with 1000000000000000000 in R.
    assert (dec_val ds >? 18446744073709551615 = false) as -> by lia.
    assert (dec_val ds >? MaxInt + 1 = false) as -> by (unfold MaxInt; lia). assert (dec_val ds >? MaxInt = false) as -> by (unfold MaxInt; lia).
    rewrite atoi_loop_digits, forallb_app. unfold all_digits in Hd. rewrite Hd. cbn [andb].
    destruct ds as [|d ds].
    + cbn [app]. destruct r as [|x r]; [reflexivity|]. cbn [forallb]. rewrite Hr. reflexivity.
    + cbn [app length Nat.ltb Nat.leb]. destruct r as [|x r].
      * cbn [forallb]. rewrite app_nil_r. destruct (Byte.eqb c x2d); reflexivity.
      * cbn [forallb]. rewrite Hr. reflexivity.
  - unfold ParseInt10. rewrite (orb_comm (Byte.eqb c x2b)), Ed. unfold ParseUint. apply Nat.ltb_ge in El.
    assert (Ln : (1 <= length (ds ++ r))%nat) by (rewrite <- Ed; destruct (_ || _); cbn [length] in *; lia).
    assert (E0 : match ds ++ r with [] => (0, Some ErrSyntax) | _ :: _ => parse_uint 18446744073709551615 (ds ++ r) 0 end = parse_uint 18446744073709551615 (ds ++ r) 0).
    { destruct (ds ++ r); [cbn in Ln; lia|reflexivity]. }
    rewrite E0, parse_uint_split by (try assumption; lia). cbv zeta. fold (dec_val ds).
    destruct (dec_val ds >? 18446744073709551615) eqn:Ev.
    + destruct (Byte.eqb c x2d); reflexivity.
    + destruct r as [|x r]; [|destruct ds; reflexivity].
      destruct ds as [|d ds]; [cbn in Ln; lia|].
      destruct (Byte.eqb c x2d); cbn [negb andb].
      * reflexivity.
      * rewrite Z.gtb_ltb, Z.geb_leb. destruct (Z.leb_spec (MaxInt + 1) (dec_val (d :: ds))), (Z.ltb_spec MaxInt (dec_val (d :: ds))); try lia; reflexivity.
Qed.

Lemma numeral_digits ds : numeral ds <-> ds <> [] /\ all_digits ds.
Proof. apply numeral_iff. Qed.
Lemma sign_cases s : (sign_of s = [] \/ sign_of s = B "+") /\ negative s = false \/ sign_of s = B "-" /\ negative s = true.
Proof.
  destruct s as [|c s]; [left; auto|]. cbn. destruct (Byte.eqb c x2d) eqn:E1.
  - apply Byte.byte_dec_bl in E1. subst c. right. auto.
  - destruct (Byte.eqb c x2b) eqn:E2; [|left; auto]. apply Byte.byte_dec_bl in E2. subst c. left. auto.
Qed.
Lemma digit_plus c : is_digit c = true -> c <> x2d /\ c <> x2b.
Proof. intros H. split; intros ->; discriminate H. Qed.
(** Sign, digits and rest of a text are determined by it. *)
Lemma sign_det sg ds r : (sg = [] \/ sg = B "+" \/ sg = B "-") -> numeral ds ->
  sign_of (sg ++ ds ++ r) = sg /\ after_sign (sg ++ ds ++ r) = ds ++ r.
Proof.
  intros Hg Hd. apply numeral_digits in Hd as [Hn Hd]. destruct ds as [|d ds]; [now elim Hn|]. unfold all_digits in Hd. cbn [forallb] in Hd. apply andb_prop in Hd as [Hd _].
  destruct (digit_no_sign d Hd) as [E1 E2]. destruct Hg as [-> | [-> | ->]]; cbn.
  - rewrite E1, E2. auto.
  - auto.
  - auto.
Qed.
Lemma digits_det ds r ds' r' : ds ++ r = ds' ++ r' -> all_digits ds -> all_digits ds' -> match r with [] => True | c :: _ => is_digit c = false end ->
  exists u, ds = ds' ++ u /\ r' = u ++ r /\ all_digits u.
Proof.
  intros E Hd Hd' Hr. revert ds' E Hd'. induction ds as [|d ds IH]; intros ds' E Hd'.
  - cbn in E. destruct ds' as [|d' ds']; [exists []; cbn in *; auto|]. subst r. cbn in Hr. unfold all_digits in Hd'. cbn in Hd'. rewrite Hr in Hd'. discriminate.
  - destruct ds' as [|d' ds']; [exists (d :: ds); cbn in *; auto|]. cbn in E. injection E as <- E. unfold all_digits in *. cbn [forallb] in Hd, Hd'. apply andb_prop in Hd as [_ Hd]. apply andb_prop in Hd' as [_ Hd'].
    destruct (IH Hd ds' E Hd') as (u & -> & -> & Hu). exists u. auto.
Qed.
Lemma dec_val_app_ge a b : all_digits a -> all_digits b -> dec_val a <= dec_val (a ++ b).
Proof. intros Ha Hb. unfold dec_val at 2. rewrite fold_left_app. apply fold_dec_ge; [apply dec_val_range; exact Ha|exact Hb]. Qed.

Lemma Atoi_exact s :
  (forall v, int_text s v -> - 2 ^ 63 <= v < 2 ^ 63 -> Atoi s = (v, None)) /\
  (forall v, int_text s v -> v < - 2 ^ 63 -> Atoi s = (- 2 ^ 63, Some ErrRange)) /\
  (forall v, int_text s v -> 2 ^ 63 <= v -> Atoi s = (2 ^ 63 - 1, Some ErrRange)) /\
  ((forall v, ~ int_text s v) -> too_long s -> Atoi s = (if negative s then - 2 ^ 63 else 2 ^ 63 - 1, Some ErrRange)) /\
  ((forall v, ~ int_text s v) -> ~ too_long s -> Atoi s = (0, Some ErrSyntax)).
Proof.
  change (2 ^ 63) with 9223372036854775808.
  destruct (digits_split (after_sign s)) as (ds & r & Ea & Hd & Hr).
  pose proof (Atoi_split s ds r Ea Hd Hr) as EA. pose proof (dec_val_range ds Hd) as DR.
  assert (IT : forall v, int_text s v -> r = [] /\ ds <> [] /\ v = if negative s then - dec_val ds else dec_val ds).
  { intros v (sg & ds' & Es & Hn & Hv). assert (Hsg : sg = [] \/ sg = B "+" \/ sg = B "-") by tauto.
    destruct (sign_det sg ds' [] Hsg Hn) as [S1 S2]. rewrite app_nil_r in S1, S2. rewrite <- Es in S1, S2. rewrite S2 in Ea.
    apply numeral_digits in Hn as [Hn Hd']. destruct (digits_det ds r ds' [] ltac:(rewrite app_nil_r; symmetry; exact Ea) Hd Hd' Hr) as (u & E1 & E2 & _).
    symmetry in E2. apply app_eq_nil in E2 as [Eu Er]. rewrite Eu, app_nil_r in E1. clear Ea S2. subst ds' r. split; [reflexivity|]. split; [exact Hn|].
    rewrite !number_dec in Hv. destruct (sign_cases s) as [[Q Q2]|[Q Q2]]; rewrite Q2.
    - rewrite S1 in Q. destruct Hv as [[_ Hv]|[Eg _]]; [exact Hv|]. subst sg. destruct Q as [Q|Q]; discriminate Q.
    - rewrite S1 in Q. rewrite Q in Hv; destruct Hv as [[[E|E] _]|[_ Hv]]; [discriminate E|discriminate E|exact Hv]. }
  split; [|split; [|split; [|split]]].
  - intros v Hv Hr'. destruct (IT v Hv) as (-> & Hn & Ev). destruct ds as [|d ds]; [now elim Hn|]. rewrite EA. unfold MaxInt. destruct (negative s); subst v.
    + assert (dec_val (d :: ds) >? 18446744073709551615 = false) as -> by lia. assert (dec_val (d :: ds) >? 9223372036854775807 + 1 = false) as -> by lia. reflexivity.
    + assert (dec_val (d :: ds) >? 18446744073709551615 = false) as -> by lia. assert (dec_val (d :: ds) >? 9223372036854775807 = false) as -> by lia. reflexivity.
  - intros v Hv Hr'. destruct (IT v Hv) as (-> & Hn & Ev). destruct ds as [|d ds]; [now elim Hn|]. rewrite EA. unfold MaxInt. destruct (negative s); subst v; [|lia].
    destruct (dec_val (d :: ds) >? 18446744073709551615); [reflexivity|]. assert (dec_val (d :: ds) >? 9223372036854775807 + 1 = true) as -> by lia. reflexivity.
  - intros v Hv Hr'. destruct (IT v Hv) as (-> & Hn & Ev). destruct ds as [|d ds]; [now elim Hn|]. rewrite EA. unfold MaxInt. destruct (negative s); subst v; [lia|].
    destruct (dec_val (d :: ds) >? 18446744073709551615); [reflexivity|]. assert (dec_val (d :: ds) >? 9223372036854775807 = true) as -> by lia. reflexivity.
  - intros _ (sg & ds' & r' & Es & Hsg & Hn & Hbig). rewrite EA. rewrite number_dec in Hbig. change (2 ^ 64) with 18446744073709551616 in Hbig.
    destruct (sign_det sg ds' r' Hsg Hn) as [_ S2]. rewrite <- Es in S2. rewrite S2 in Ea. apply numeral_digits in Hn as [Hn Hd'].
    destruct (digits_det ds r ds' r' ltac:(symmetry; exact Ea) Hd Hd' Hr) as (u & E1 & _ & Hu).
    pose proof (dec_val_app_ge ds' u Hd' Hu) as G. rewrite <- E1 in G.
    assert (dec_val ds >? 18446744073709551615 = true) as -> by lia. reflexivity.
  - intros Hno Hnl. rewrite EA.
    assert (Hsg : sign_of s = [] \/ sign_of s = B "+" \/ sign_of s = B "-") by (destruct (sign_cases s); tauto).
    destruct ds as [|d ds]; [reflexivity|].
    assert (Hnum : numeral (d :: ds)) by (apply numeral_digits; split; [discriminate|exact Hd]).
    destruct (dec_val (d :: ds) >? 18446744073709551615) eqn:Ev.
    { elim Hnl. exists (sign_of s), (d :: ds), r. rewrite <- Ea, number_dec. change (2 ^ 64) with 18446744073709551616. split; [apply sign_split|]. split; [exact Hsg|]. split; [exact Hnum|lia]. }
    destruct r as [|x r]; [|reflexivity]. exfalso. rewrite app_nil_r in Ea.
    apply (Hno (if negative s then - number (d :: ds) else number (d :: ds))). exists (sign_of s), (d :: ds). rewrite <- Ea. split; [apply sign_split|]. rewrite Ea. split; [exact Hnum|].
    destruct (sign_cases s) as [[Q Q2]|[Q Q2]]; rewrite Q2; tauto.
Qed.

(** The pieces that Split returns: joined by the separator they are the text, and none contains it. *)
Lemma is_prefix_app p s : is_prefix p s = true -> exists r, s = p ++ r.
Proof.
  revert s; induction p as [|x p IH]; intros s H; [exists s; reflexivity|]. destruct s as [|y s]; [discriminate|]. cbn in H. apply andb_prop in H as [E H].
  apply Byte.byte_dec_bl in E. subst y. destruct (IH s H) as [r ->]. exists r. reflexivity.
Qed.
Lemma Index_None s sub a b : Index s sub = None -> s <> a ++ sub ++ b.
Proof.
  assert (P : forall p t, is_prefix p (p ++ t) = true) by (induction p as [|x p IH]; intros t; [reflexivity|]; cbn; rewrite Byte.byte_dec_lb by reflexivity; apply IH).
  revert a. induction s as [|c s IH]; intros a H E; cbn [Index] in H.
  - symmetry in E. apply app_eq_nil in E as [-> E]. apply app_eq_nil in E as [-> ->]. discriminate.
  - destruct (is_prefix sub (c :: s)) eqn:Ep; [discriminate|]. destruct a as [|x a].
    + cbn in E. rewrite E, P in Ep. discriminate.
    + cbn in E. injection E as _ E. destruct (Index s sub) eqn:Ei; [discriminate|]. exact (IH a eq_refl E).
Qed.
Lemma Index_first s sub m a b : sub <> [] -> Index s sub = Some m -> firstn m s <> a ++ sub ++ b.
Proof.
  intros Hs. revert m a. induction s as [|c s IH]; intros m a H E; cbn [Index] in H.
  - rewrite firstn_nil in E. symmetry in E. apply app_eq_nil in E as [-> E]. apply app_eq_nil in E as [-> ->]. now elim Hs.
  - destruct (is_prefix sub (c :: s)) eqn:Ep.
    + injection H as <-. cbn in E. symmetry in E. apply app_eq_nil in E as [-> E]. apply app_eq_nil in E as [-> ->]. now elim Hs.
    + destruct (Index s sub) as [j|] eqn:Ei; [|discriminate]. cbn in H. injection H as <-. cbn [firstn] in E. destruct a as [|x a].
      * cbn in E. destruct sub as [|y sub]; [now elim Hs|]. cbn in E. injection E as <- E. cbn [is_prefix] in Ep. rewrite Byte.byte_dec_lb in Ep by reflexivity. cbn [andb] in Ep.
        assert (Q : is_prefix sub s = true); [|rewrite Q in Ep; discriminate].
        assert (Pm : forall p t n, firstn n t = p ++ b -> is_prefix p t = true).
        { clear. induction p as [|x p IH]; intros t n H; [reflexivity|]. destruct n as [|n]; [discriminate|]. destruct t as [|y t]; [discriminate|]. cbn in H. injection H as -> H. cbn. rewrite Byte.byte_dec_lb by reflexivity. exact (IH t n H). }
        exact (Pm sub s j E).
      * cbn in E. injection E as _ E. exact (IH j a eq_refl E).
Qed.
Lemma pieces_ne f s sep : pieces f s sep <> [].
Proof. destruct f; cbn; [discriminate|]. destruct (Index s sep); discriminate. Qed.
Lemma pieces_spec sep f : sep <> [] -> forall s, (length s <= f)%nat ->
  Join sep (pieces f s sep) = s /\ Forall (fun p => forall a b, p <> a ++ sep ++ b) (pieces f s sep).
Proof.
  intros Hs. assert (1 <= length sep)%nat by (destruct sep; [now elim Hs|cbn; lia]). induction f as [|f IH]; intros s Hf.
  - destruct s; [|cbn in Hf; lia]. split; [reflexivity|]. constructor; [|constructor]. intros a b E. symmetry in E. apply app_eq_nil in E as [-> E]. apply app_eq_nil in E as [-> ->]. now elim Hs.
  - cbn [pieces]. destruct (Index s sep) as [m|] eqn:E.
    + pose proof (Index_le _ _ _ E) as [Hp Hl]. destruct (IH (skipn (m + length sep) s)) as [H1 H2]; [rewrite skipn_length; lia|]. split.
      * pose proof (pieces_ne f (skipn (m + length sep) s) sep) as Ne. destruct (pieces f (skipn (m + length sep) s) sep) as [|p ps]; [now elim Ne|].
        change (Join sep (firstn m s :: p :: ps)) with (firstn m s ++ sep ++ Join sep (p :: ps)). rewrite H1.
        apply is_prefix_app in Hp as [r Hr]. rewrite skipn_add, Hr, skipn_app, skipn_all, Nat.sub_diag. cbn [app skipn]. rewrite <- Hr. apply firstn_skipn.
      * constructor; [|exact H2]. intros a b. apply Index_first; assumption.
    + split; [reflexivity|]. constructor; [|constructor]. intros a b. apply Index_None. exact E.
Qed.
Lemma GoSplit_spec s sep : sep <> [] -> exists ps, GoSplit s sep = Ret ps /\ Join sep ps = s /\ Forall (fun p => forall a b, p <> a ++ sep ++ b) ps.
Proof. intros Hs. exists (pieces (length s) s sep). split; [apply GoSplit_pieces; exact Hs|]. apply pieces_spec; [exact Hs|lia]. Qed.
Lemma GoContains_iff s sub : GoContains s sub = true <-> exists a b, s = a ++ sub ++ b.
Proof.
  unfold GoContains. destruct (Index s sub) as [m|] eqn:E.
  - split; [intros _|reflexivity]. apply Index_le in E as [E _]. apply is_prefix_app in E as [r Hr]. exists (firstn m s), r. rewrite <- Hr. symmetry. apply firstn_skipn.
  - split; [discriminate|]. intros (a & b & X). elim (Index_None s sub a b E X).
Qed.
