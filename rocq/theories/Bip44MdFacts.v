(** Bip44MdFacts.v - lemmas about the reader of slip-0044.md and the printers of coins. *)
From Verif Require Import Base BaseFacts GoStr GoStrFacts SpecPath Bip32RegFacts Bip32PathFacts Bip44 SpecCoins Bip44Facts.

(** ** TrimSpace *)
Lemma drop_spaces_app_all s x : forallb snd s = true -> drop_spaces (s ++ x) = drop_spaces x.
Proof. induction s as [|[c []] s IH]; cbn; [reflexivity|exact IH|discriminate]. Qed.
Lemma drop_spaces_app_some s x : forallb snd s = false -> drop_spaces (s ++ x) = drop_spaces s ++ x.
Proof. induction s as [|[c []] s IH]; cbn; [discriminate|exact IH|reflexivity]. Qed.
Lemma drop_spaces_split l : exists a, l = a ++ drop_spaces l /\ forallb snd a = true.
Proof.
  induction l as [|[c []] l IH]; [exists []; auto| |exists []; auto]. destruct IH as (a & E & H).
  exists ((c, true) :: a). cbn. rewrite <- E. auto.
Qed.
Lemma forallb_rev {A} (f : A -> bool) l : forallb f (rev l) = forallb f l.
Proof. induction l as [|a l IH]; [reflexivity|]. cbn. rewrite forallb_app, IH. cbn. rewrite andb_true_r. apply andb_comm. Qed.
Lemma space_in s c : In (c, true) (runes_of s) -> In c space_chars.
Proof.
  revert s. apply (len_ind (fun s => In (c, true) (runes_of s) -> In c space_chars)). intros s IH Hin.
  destruct s as [|a s]; [inversion Hin|]. pose proof (decode_rune_width (a :: s) ltac:(discriminate)) as W.
  rewrite runes_of_cons in Hin by discriminate. destruct Hin as [E|Hin].
  - pose proof (decode_space_inv a s) as SN. assert (E1 := f_equal fst E). assert (E2 := f_equal snd E). cbn [fst snd] in E1, E2. rewrite <- E1. apply SN. exact E2.
  - revert Hin. apply IH. rewrite skipn_length. lia.
Qed.
Lemma spaces_blank s l : (forall e, In e l -> In e (runes_of s)) -> forallb snd l = true -> blank (concat (map fst l)).
Proof.
  intros H F. exists (map fst l). split; [|reflexivity]. apply Forall_forall. intros w Hw. apply in_map_iff in Hw as ([c f] & <- & Hc).
  cbn [fst]. rewrite forallb_forall in F. pose proof (F _ Hc) as Q. cbn in Q. subst f. apply (space_in s). apply H. exact Hc.
Qed.
Lemma TrimSpace_parts s : exists a b, blank a /\ blank b /\ s = a ++ TrimSpace s ++ b.
Proof.
  destruct (drop_spaces_split (runes_of s)) as (a & Ea & Fa).
  destruct (drop_spaces_split (rev (drop_spaces (runes_of s)))) as (b & Eb & Fb).
  exists (concat (map fst a)), (concat (map fst (rev b))).
  assert (D : drop_spaces (runes_of s) = rev (drop_spaces (rev (drop_spaces (runes_of s)))) ++ rev b).
  { rewrite <- rev_app_distr, <- Eb, rev_involutive. reflexivity. }
  split; [|split].
  - apply (spaces_blank s); [|exact Fa]. intros e He. rewrite Ea. apply in_or_app. left; exact He.
  - apply (spaces_blank s); [|rewrite forallb_rev; exact Fb]. intros e He. rewrite Ea, D. apply in_or_app; right. apply in_or_app; right; exact He.
  - rewrite <- (runes_concat s) at 1. rewrite Ea, D at 1. rewrite !map_app, !concat_app. reflexivity.
Qed.
Lemma runes_pad n : runes_of (pad n) = repeat ([x20], true) n.
Proof. induction n as [|n IH]; [reflexivity|]. cbn [pad repeat]. rewrite runes_of_space. unfold pad in IH. rewrite IH. reflexivity. Qed.
Lemma runes_app_pad s n : runes_of (s ++ pad n) = runes_of s ++ repeat ([x20], true) n.
Proof.
  destruct n as [|n]; [cbn; rewrite !app_nil_r; reflexivity|]. rewrite <- runes_pad. apply (runes_of_app s x20 (pad n)). apply x20_noncont.
Qed.
Lemma runes_pad_app s n : runes_of (pad n ++ s) = repeat ([x20], true) n ++ runes_of s.
Proof. induction n as [|n IH]; [reflexivity|]. cbn [pad repeat app]. rewrite runes_of_space. unfold pad in IH. rewrite IH. reflexivity. Qed.
Lemma spaces_all n : forallb snd (repeat ([x20], true) n) = true.
Proof. induction n as [|n IH]; [reflexivity|exact IH]. Qed.
Lemma TrimSpace_pad i w j : TrimSpace (pad i ++ w ++ pad j) = TrimSpace w.
Proof.
  unfold TrimSpace. rewrite runes_pad_app, runes_app_pad. rewrite drop_spaces_app_all by apply spaces_all.
  destruct (forallb snd (runes_of w)) eqn:E.
  - rewrite drop_spaces_app_all by exact E. rewrite (proj2 (drop_spaces_nil _) (spaces_all j)), (proj2 (drop_spaces_nil _) E). reflexivity.
  - rewrite drop_spaces_app_some by exact E. rewrite rev_app_distr, drop_spaces_app_all by (rewrite forallb_rev; apply spaces_all). reflexivity.
Qed.
Lemma TrimSpace_tight w : tight w -> TrimSpace w = w.
Proof.
  intros T. unfold TrimSpace.
  assert (D : forall l : list (bytes * bool), (forall c r, l <> (c, true) :: r) -> drop_spaces l = l) by (intros [|[c []] l] H; [reflexivity|now elim (H c l)|reflexivity]).
  rewrite (D (runes_of w)).
  - rewrite D; [rewrite rev_involutive; apply runes_concat|]. intros c r E.
    assert (E' : runes_of w = rev r ++ [(c, true)]) by (rewrite <- (rev_involutive (runes_of w)), E; reflexivity).
    assert (In c space_chars) as I by (apply (space_in w); rewrite E'; apply in_or_app; right; left; reflexivity).
    apply (proj2 (T c I) (concat (map fst (rev r)))). rewrite <- (runes_concat w), E', map_app, concat_app. cbn. rewrite app_nil_r. reflexivity.
  - intros c r E. assert (In c space_chars) as I by (apply (space_in w); rewrite E; left; reflexivity).
    apply (proj1 (T c I) (concat (map fst r))). rewrite <- (runes_concat w), E. reflexivity.
Qed.
Lemma blank_no_x s : blank s -> ~ In x78 s.
Proof.
  intros (ws & H & ->) K. apply in_concat in K as (w & Hw & K). rewrite Forall_forall in H. specialize (H w Hw). cbv beta in H.
  unfold space_chars in H. repeat (destruct H as [<-|H]; [repeat (destruct K as [K|K]; [discriminate K|]); destruct K|]). destruct H.
Qed.
Lemma TrimSpace_x s : In x78 s -> In x78 (TrimSpace s).
Proof.
  intros H. destruct (TrimSpace_parts s) as (a & b & Ha & Hb & E). rewrite E in H. apply in_app_or in H as [H|H]; [now elim (blank_no_x a Ha)|].
  apply in_app_or in H as [H|H]; [exact H|now elim (blank_no_x b Hb)].
Qed.
Lemma numeral_tight d : Forall digit d -> tight d.
Proof.
  intros H c Hc. assert (A : exists x y, c = x :: y /\ ~ digit x /\ (exists a b, c = a ++ [b] /\ ~ digit b)).
  { unfold space_chars in Hc.
    assert (ND : forall x, is_digit x = false -> ~ digit x) by (intros x E D; apply digit_iff in D; congruence).
    repeat (destruct Hc as [<-|Hc]; [eexists _, _; split; [reflexivity|]; split; [apply ND; reflexivity|];
      first [exists []; eexists _; split; [reflexivity|apply ND; reflexivity] | eexists [_], _; split; [reflexivity|apply ND; reflexivity] | eexists [_; _], _; split; [reflexivity|apply ND; reflexivity]]|]). destruct Hc. }
  destruct A as (x & y & E & Nx & a & b & E2 & Nb). rewrite Forall_forall in H. split; intros r Er.
  - apply Nx, H. rewrite Er, E. left; reflexivity.
  - apply Nb, H. rewrite Er, E2. apply in_or_app; right. apply in_or_app; right. left; reflexivity.
Qed.

(** ** Rows *)
Lemma SplitBar_app c r : no_bar c -> SplitBar (c ++ B "| " ++ r) = c :: SplitBar r.
Proof.
  intros H. induction c as [|x c IH]; [reflexivity|].
  assert (Byte.eqb x x7c = false) as E by (apply byte_eqb_neq; intros ->; apply H; left; reflexivity).
  cbn [app]. destruct (c ++ B "| " ++ r) as [|y s] eqn:Q; [destruct c; discriminate|].
  change (SplitBar (x :: y :: s)) with (if Byte.eqb x x7c && Byte.eqb y x20 then [] :: SplitBar s
      else match SplitBar (y :: s) with [] => [[x]] | w :: ws => (x :: w) :: ws end).
  rewrite E. cbn [andb]. rewrite IH by (intros K; apply H; right; exact K). reflexivity.
Qed.
Lemma SplitBar_last c : no_bar c -> SplitBar c = [c].
Proof.
  intros H. induction c as [|x c IH]; [reflexivity|].
  assert (Byte.eqb x x7c = false) as E by (apply byte_eqb_neq; intros ->; apply H; left; reflexivity).
  destruct c as [|y s]; [reflexivity|].
  change (SplitBar (x :: y :: s)) with (if Byte.eqb x x7c && Byte.eqb y x20 then [] :: SplitBar s
      else match SplitBar (y :: s) with [] => [[x]] | w :: ws => (x :: w) :: ws end).
  rewrite E. cbn [andb]. rewrite IH by (intros K; apply H; right; exact K). reflexivity.
Qed.
Lemma SplitBar_row cells : Forall no_bar cells -> SplitBar (row cells) = [] :: cells.
Proof.
  assert (G : forall c cells, no_bar c -> Forall no_bar cells -> SplitBar (c ++ row cells) = c :: cells).
  { intros c ls. revert c. induction ls as [|d ls IH]; intros c Hc Hl; [cbn; rewrite app_nil_r; apply SplitBar_last; exact Hc|].
    inversion Hl; subst. unfold row. cbn [map concat]. rewrite <- app_assoc. rewrite SplitBar_app by exact Hc. f_equal. apply IH; assumption. }
  intros H. apply (G []); [intros []|exact H].
Qed.
Lemma parse_uint_bad m s : forallb is_digit s = false -> forall n, snd (parse_uint m s n) <> None.
Proof.
  induction s as [|c s IH]; intros H n; [discriminate|]. cbn [parse_uint]. cbn [forallb] in H.
  destruct (is_digit c); cbn [negb andb] in *; [|discriminate]. destruct (n >=? cutoff); [discriminate|]. cbv zeta.
  destruct (_ || _); [discriminate|]. apply IH. exact H.
Qed.
Lemma ParseUint10_eq s : ParseUint10 s =
  match s with [] => None | _ => if forallb is_digit s then (if dec_val s <=? 4294967295 then Some (dec_val s) else None) else None end.
Proof.
  unfold ParseUint10, ParseUint. destruct s as [|c s]; [reflexivity|]. destruct (forallb is_digit (c :: s)) eqn:D.
  - rewrite parse_uint_digits by (try exact D; lia). cbv zeta. fold (dec_val (c :: s)).
    rewrite Z.gtb_ltb, Z.ltb_antisym. destruct (dec_val (c :: s) <=? 4294967295); reflexivity.
  - pose proof (parse_uint_bad 4294967295 (c :: s) D 0) as X. destruct (parse_uint 4294967295 (c :: s) 0) as [v [e|]]; [reflexivity|now elim X].
Qed.
Lemma ParseUint10_bad s : In x78 s -> ParseUint10 s = None.
Proof.
  intros H. rewrite ParseUint10_eq. destruct s; [destruct H|].
  destruct (forallb is_digit _) eqn:E; [|reflexivity]. rewrite forallb_forall in E. specialize (E _ H). discriminate.
Qed.
Lemma pad_no_bar n : no_bar (pad n).
Proof. intros H. apply repeat_spec in H. discriminate. Qed.
Lemma hexes_no_bar h : is_hexes h -> no_bar h.
Proof.
  intros H K. unfold is_hexes in H. rewrite Forall_forall in H. destruct (H _ K) as (n & Hn & [E|E]); apply nth_error_In in E;
    repeat (destruct E as [E|E]; [discriminate E|]); destruct E.
Qed.
Lemma app_no_bar a b : no_bar a -> no_bar b -> no_bar (a ++ b).
Proof. intros Ha Hb H. apply in_app_or in H as [H|H]; auto. Qed.
Lemma digits_no_bar d : Forall digit d -> no_bar d.
Proof. intros H K. rewrite Forall_forall in H. specialize (H _ K). repeat (destruct H as [H|H]; [discriminate H|]). destruct H. Qed.
Lemma slip_row_none l : slip_row l -> md_line ParseUint10 l = None.
Proof.
  intros (t & i & h & j & rest & F & Hh & ->). inversion F as [|? ? Ft Fr]; subst. unfold md_line.
  rewrite SplitBar_row by (constructor; [exact Ft|constructor; [|exact Fr]]; repeat apply app_no_bar; try apply pad_no_bar; [intros [K|[K|[]]]; discriminate K|apply hexes_no_bar; exact Hh]).
  cbn [tl map nth].
  destruct (_ && _); [|reflexivity].
  destruct (ParseUint10 (TrimSpace t)); [|reflexivity].
  rewrite ParseUint10_bad; [reflexivity|]. apply TrimSpace_x. apply in_or_app; right. apply in_or_app; left. right; left; reflexivity.
Qed.
Lemma ParseUint10_numeral d : numeral d -> number d < 2 ^ 32 -> ParseUint10 d = Some (number d).
Proof.
  intros H L. change (2 ^ 32) with 4294967296 in L. rewrite number_dec in *. apply numeral_iff in H as [Hn Hd]. rewrite ParseUint10_eq. destruct d; [now elim Hn|].
  unfold all_digits in Hd. rewrite Hd. replace (_ <=? _) with true by lia. reflexivity.
Qed.

(** ** Documents *)
Lemma coins_Join parse ls : ls <> [] -> Forall (fun l => ~ In x0a l) ls ->
  registered_coins parse (Join [x0a] ls) = flat_map (fun l => match md_line parse l with Some c => [c] | None => [] end) ls.
Proof.
  intros N H. unfold registered_coins. rewrite Split_Join; [reflexivity|exact N|]. eapply Forall_impl; [|exact H]. intros l Hl.
  destruct (ContainsB x0a l) eqn:E; [|reflexivity]. exfalso. apply Hl. unfold ContainsB in E. apply existsb_exists in E as (x & Hx & E).
  apply byte_eqb_spec in E. subst. exact Hx.
Qed.
Lemma coins_one parse l : ~ In x0a l -> registered_coins parse l = match md_line parse l with Some c => [c] | None => [] end.
Proof. intros H. pose proof (coins_Join parse [l] ltac:(discriminate) ltac:(constructor; [exact H|constructor])) as E. cbn [Join flat_map] in E. rewrite app_nil_r in E. exact E. Qed.

(** ** Splitting at a byte that occurs in neither prefix *)
Lemma split_at x (a b r s : bytes) : ~ In x a -> ~ In x b -> a ++ x :: r = b ++ x :: s -> a = b /\ r = s.
Proof.
  revert b. induction a as [|y a IH]; intros [|z b] Ha Hb E; cbn in E.
  - injection E as ->. auto.
  - injection E as -> _. elim Hb. left; reflexivity.
  - injection E as -> _. elim Ha. left; reflexivity.
  - injection E as -> E. destruct (IH b) as [-> ->]; auto; [intros K; apply Ha; right; exact K|intros K; apply Hb; right; exact K].
Qed.
Lemma Itoa_inj m n : 0 <= m -> 0 <= n -> Itoa m = Itoa n -> m = n.
Proof. intros Hm Hn E. rewrite <- (dec_Itoa m Hm), <- (dec_Itoa n Hn), E. reflexivity. Qed.
Lemma Itoa_no x n : 0 <= n -> is_digit x = false -> ~ In x (Itoa n).
Proof.
  intros Hn E K. destruct (Itoa_numeral n Hn) as [_ F]. rewrite Forall_forall in F. specialize (F _ K). apply digit_iff in F. congruence.
Qed.
Lemma CoinString_type c c' : 0 <= CType c -> 0 <= CType c' -> CoinString c = CoinString c' -> CType c = CType c'.
Proof.
  intros H H' E. unfold CoinString in E. cbv zeta in E.
  assert (G : forall nm n, nm ++ B " (Type " ++ Itoa n ++ B ")" = rev (x29 :: rev (Itoa n) ++ x20 :: rev (nm ++ B " (Type"))).
  { intros nm n. cbn [rev]. rewrite rev_app_distr. cbn [rev]. rewrite !rev_involutive, <- !app_assoc. reflexivity. }
  rewrite !G in E. apply (f_equal (@rev byte)) in E. rewrite !rev_involutive in E. injection E as E.
  apply split_at in E; [|rewrite <- in_rev; apply Itoa_no; [assumption|reflexivity]..]. destruct E as [E _].
  apply (f_equal (@rev byte)) in E. rewrite !rev_involutive in E. apply Itoa_inj; assumption.
Qed.
Lemma hexdigit_inj a b : 0 <= a < 16 -> 0 <= b < 16 -> hexdigit a = hexdigit b -> a = b.
Proof.
  intros Ha Hb E. unfold hexdigit in E. destruct (a <? 10) eqn:A, (b <? 10) eqn:B'; apply (f_equal Zb) in E; rewrite !Zb_bZ in E; rewrite !Z.mod_small in E by lia; lia.
Qed.
Lemma hex_text_inj m n : 0 <= m -> 0 <= n -> hex_text m = hex_text n -> m = n.
Proof.
  assert (P : forall n, 0 < n -> hex_text n = rev (map hexdigit (digits 16 n))) by (intros k Hk; unfold hex_text; replace (k <=? 0) with false by lia; reflexivity).
  assert (Z0 : forall n, 0 < n -> hex_text n <> B "0").
  { intros k Hk E. rewrite P in E by exact Hk. apply (f_equal (@rev byte)) in E. rewrite rev_involutive in E. change (rev (B "0")) with [hexdigit 0] in E.
    pose proof (digits_eval 16 k ltac:(lia) ltac:(lia)) as V. pose proof (digits_range 16 k ltac:(lia)) as R.
    destruct (digits 16 k) as [|d [|e l]]; cbn [map] in E; try discriminate E. injection E as E. inversion R as [|? ? Rd _]. apply hexdigit_inj in E; [|assumption|lia]. rewrite E in V. cbn in V. lia. }
  assert (N0 : hex_text 0 = B "0") by reflexivity.
  intros Hm Hn E. destruct (Z.eq_dec m 0) as [->|M], (Z.eq_dec n 0) as [->|N]; [reflexivity|elim (Z0 n); [lia|congruence]|elim (Z0 m); [lia|congruence]|].
  rewrite !P in E by lia. apply (f_equal (@rev byte)) in E. rewrite !rev_involutive in E.
  pose proof (digits_eval 16 m ltac:(lia) Hm) as Vm. pose proof (digits_eval 16 n ltac:(lia) Hn) as Vn.
  pose proof (digits_range 16 m ltac:(lia)) as Rm. pose proof (digits_range 16 n ltac:(lia)) as Rn.
  assert (D : digits 16 m = digits 16 n); [|rewrite <- Vm, D; exact Vn].
  clear Vm Vn. revert E Rm Rn. generalize (digits 16 m) (digits 16 n). induction l as [|a l IH]; intros [|b l'] E Rm Rn; try discriminate; [reflexivity|].
  cbn [map] in E. injection E as E1 E2. inversion Rm; inversion Rn; subst. f_equal; [apply hexdigit_inj; assumption|apply IH; assumption].
Qed.
Lemma hex_text_no x n : hexval x = None -> ~ In x (hex_text n).
Proof.
  intros Hx K. assert (A : forall d, 0 <= d < 16 -> hexval (hexdigit d) <> None).
  { intros d Hd. assert (exists k, (k < 16)%nat /\ d = Z.of_nat k) as (k & L & ->) by (exists (Z.to_nat d); lia). clear Hd.
    do 16 (destruct k as [|k]; [discriminate|]). lia. }
  unfold hex_text in K. destruct (n <=? 0); [destruct K as [<-|[]]; discriminate Hx|]. rewrite <- in_rev in K. apply in_map_iff in K as (d & <- & Hd).
  pose proof (digits_range 16 n ltac:(lia)) as R. rewrite Forall_forall in R. apply (A d (R d Hd)). exact Hx.
Qed.
Lemma StringForMD_inj c c' : coin_range c -> coin_range c' -> ~ In x22 (Symbol c) -> ~ In x22 (Symbol c') -> StringForMD c = StringForMD c' -> c = c'.
Proof.
  intros [[T1 _] [P1 _]] [[T2 _] [P2 _]] S1 S2 E. unfold StringForMD in E. apply app_inv_head in E.
  change (B ", PathComponent: 0x") with (x2c :: B " PathComponent: 0x") in E. cbn [app] in E.
  apply split_at in E; [|apply Itoa_no; [assumption|reflexivity]..]. destruct E as [E1 E]. apply app_inv_head in E.
  change (B ", Symbol: ") with (x2c :: B " Symbol: ") in E. cbn [app] in E.
  apply split_at in E; [|apply hex_text_no; reflexivity..]. destruct E as [E2 E]. apply app_inv_head in E. injection E as E.
  apply split_at in E; [|assumption..]. destruct E as [E3 E]. injection E as E. apply app_inv_tail in E.
  apply Itoa_inj in E1; [|assumption..]. apply hex_text_inj in E2; [|assumption..]. destruct c, c'; cbn in *. congruence.
Qed.

(** ** Checking rows of the table *)
(** In proofs; for bip44/script.go:32-57. *)
Fixpoint span (f : byte -> bool) (s : bytes) : bytes * bytes :=
  match s with
  | [] => ([], [])
  | x :: r => if f x then let '(a, b) := span f r in (x :: a, b) else ([], s)
  end.
Lemma span_eq f s : forall a b, span f s = (a, b) -> s = a ++ b /\ forallb f a = true.
Proof.
  induction s as [|x r IH]; intros a b E; cbn in E; [injection E as <- <-; auto|].
  destruct (f x) eqn:F; [|injection E as <- <-; auto]. destruct (span f r) as [a' b']. injection E as <- <-. destruct (IH a' b' eq_refl) as [-> H].
  cbn. rewrite F. auto.
Qed.
(** In proofs; for bip44/script.go:32-57. *)
Fixpoint eat (p s : bytes) : option bytes :=
  match p, s with
  | [], _ => Some s
  | _, [] => None
  | x :: p', y :: s' => if Byte.eqb x y then eat p' s' else None
  end.
Lemma eat_eq p : forall s r, eat p s = Some r -> s = p ++ r.
Proof.
  induction p as [|x p IH]; intros [|y s] r E; cbn in E; try discriminate; [injection E as <-; reflexivity..|].
  destruct (Byte.eqb x y) eqn:X; [|discriminate]. apply byte_eqb_spec in X. subst. cbn. f_equal. apply IH. exact E.
Qed.
(** In proofs; for bip44/script.go:32-57. *)
Definition is_sp (c : byte) : bool := Byte.eqb c x20.
Lemma sp_pad s : forallb is_sp s = true -> s = pad (length s).
Proof.
  induction s as [|x s IH]; intros H; [reflexivity|]. cbn in H. apply andb_true_iff in H as [H1 H2]. unfold is_sp in H1. apply byte_eqb_spec in H1. subst.
  cbn. f_equal. apply IH. exact H2.
Qed.
(** In proofs; for bip44/script.go:32-57. *)
Definition is_hex (c : byte) : bool := match hexval c with Some _ => true | None => false end.
(** In proofs; for bip44/script.go:32-57. *)
Definition hex_val (s : bytes) : Z := fold_left (fun a c => a * 16 + match hexval c with Some v => v | None => 0 end) s 0.
(** digits, hexadecimal digits and the rest of a row *)
(** In proofs; for bip44/script.go:32-57. *)
Definition row_head (l : bytes) : option (bytes * bytes * bytes) :=
  match eat (B "| ") l with
  | None => None
  | Some r =>
    let '(d, r) := span is_digit r in
    match eat (B "| 0x") (snd (span is_sp r)) with
    | None => None
    | Some r =>
      let '(h, r) := span is_hex r in
      match d, eat (B "| ") (snd (span is_sp r)) with
      | _ :: _, Some r => Some (d, h, r)
      | _, _ => None
      end
    end
  end.
(** In proofs; for bip44/script.go:32-57. *)
Definition coin_rowb (hd : bytes * bytes * bytes) (c : Coin) : bool :=
  let '(d, h, r) := hd in
  (dec_val d =? CType c) && (hex_val h =? PathComponent c) &&
  match eat (Symbol c) r with
  | None => false
  | Some r =>
    match eat (B "| ") (snd (span is_sp r)) with
    | None => false
    | Some r => match eat (CName c) r with None => false | Some r => forallb is_sp r end
    end
  end.
(** In proofs; for bip44/script.go:32-57. *)
Definition unassigned_rowb (hd : bytes * bytes * bytes) : bool :=
  let '(d, h, r) := hd in
  forallb is_sp r ||
  match eat (B "---") r with
  | None => false
  | Some r =>
    match eat (B "| ") (snd (span is_sp r)) with
    | None => false
    | Some r => match eat (B "reserved") r with None => false | Some r => forallb is_sp r end
    end
  end.
(** In proofs; for bip44/script.go:32-57. *)
Fixpoint walk (ls : list bytes) (cs : list Coin) : bool :=
  match ls with
  | [] => match cs with [] => true | _ => false end
  | l :: ls' =>
    match row_head l with
    | None => false
    | Some hd =>
      match cs with
      | c :: cs' => if coin_rowb hd c then walk ls' cs' else unassigned_rowb hd && walk ls' cs
      | [] => unassigned_rowb hd && walk ls' []
      end
    end
  end.
Lemma hexval_digit c : is_hex c = true -> hex_digit c (match hexval c with Some v => v | None => 0 end).
Proof.
  assert (A : forall c, match hexval c with Some n => (0 <=? n) && ((match nth_error (B "0123456789abcdef") (Z.to_nat n) with Some d => Byte.eqb d c | None => false end) ||
      (match nth_error (B "0123456789ABCDEF") (Z.to_nat n) with Some d => Byte.eqb d c | None => false end)) | None => true end = true) by (intros []; reflexivity).
  unfold is_hex. specialize (A c). destruct (hexval c) as [n|]; [intros _|discriminate]. apply andb_true_iff in A as [A1 A2]. split; [lia|]. apply orb_true_iff in A2 as [E|E]; [left|right].
  - destruct (nth_error (B "0123456789abcdef") (Z.to_nat n)) as [d|]; [|discriminate]. apply byte_eqb_spec in E. subst. reflexivity.
  - destruct (nth_error (B "0123456789ABCDEF") (Z.to_nat n)) as [d|]; [|discriminate]. apply byte_eqb_spec in E. subst. reflexivity.
Qed.
Lemma is_hexes_all h : forallb is_hex h = true -> is_hexes h.
Proof. intros H. rewrite forallb_forall in H. apply Forall_forall. intros c Hc. eexists. apply hexval_digit. exact (H c Hc). Qed.
Lemma hex_val_number h : forallb is_hex h = true -> hex_number h (hex_val h).
Proof.
  intros H. induction h as [|c h IH] using rev_ind; [constructor|]. rewrite forallb_app in H. apply andb_true_iff in H as [H1 H2]. cbn in H2. rewrite andb_true_r in H2.
  unfold hex_val. rewrite fold_left_app. cbn [fold_left]. rewrite Z.mul_comm. constructor; [apply IH; exact H1|apply hexval_digit; exact H2].
Qed.
Lemma sp_rest s : exists n, s = pad n ++ snd (span is_sp s).
Proof.
  destruct (span is_sp s) as [a b] eqn:E. apply span_eq in E as [-> H]. exists (length a). cbn [snd]. rewrite <- sp_pad by exact H. reflexivity.
Qed.
Lemma row_head_eq l d h r : row_head l = Some (d, h, r) -> numeral d /\ forallb is_hex h = true /\
  exists i j, l = B "| " ++ (d ++ pad i) ++ B "| " ++ (B "0x" ++ h ++ pad j) ++ B "| " ++ r.
Proof.
  unfold row_head. destruct (eat (B "| ") l) as [r1|] eqn:E1; [|discriminate]. apply eat_eq in E1. destruct (span is_digit r1) as [d1 r2] eqn:E2.
  apply span_eq in E2 as [E2 D2]. destruct (eat (B "| 0x") (snd (span is_sp r2))) as [r3|] eqn:E3; [|discriminate]. apply eat_eq in E3.
  destruct (span is_hex r3) as [h1 r4] eqn:E4. apply span_eq in E4 as [E4 D4]. destruct d1 as [|x d1]; [discriminate|].
  destruct (eat (B "| ") (snd (span is_sp r4))) as [r5|] eqn:E5; [|discriminate]. apply eat_eq in E5. intros E.
  assert (x :: d1 = d /\ h1 = h /\ r5 = r) as (<- & <- & <-) by (repeat split; congruence).
  split; [apply numeral_iff; split; [discriminate|exact D2]|]. split; [exact D4|].
  destruct (sp_rest r2) as [i Hi]. destruct (sp_rest r4) as [j Hj]. exists i, j. rewrite E1, E2, Hi, E3, E4, Hj, E5. rewrite <- !app_assoc. reflexivity.
Qed.
Lemma coin_rowb_ok l hd c : row_head l = Some hd -> coin_rowb hd c = true -> coin_row l c.
Proof.
  destruct hd as [[d h] r]. intros E H. apply row_head_eq in E as (Nd & Hh & i & j & ->). unfold coin_rowb in H.
  apply andb_true_iff in H as [H H3]. apply andb_true_iff in H as [H1 H2].
  destruct (eat (Symbol c) r) as [r1|] eqn:E1; [|discriminate]. apply eat_eq in E1. destruct (eat (B "| ") (snd (span is_sp r1))) as [r2|] eqn:E2; [|discriminate]. apply eat_eq in E2.
  destruct (eat (CName c) r2) as [r3|] eqn:E3; [|discriminate]. apply eat_eq in E3. destruct (sp_rest r1) as [k Hk].
  exists d, h, i, j, k, (length r3). split; [exact Nd|]. split; [rewrite number_dec; lia|]. split; [replace (PathComponent c) with (hex_val h) by lia; apply hex_val_number; exact Hh|].
  rewrite <- (sp_pad r3 H3). rewrite E1, Hk, E2, E3. unfold row. cbn [map concat]. rewrite app_nil_r, <- !app_assoc. reflexivity.
Qed.
Lemma unassigned_rowb_ok l hd : row_head l = Some hd -> unassigned_rowb hd = true -> unassigned_row l.
Proof.
  destruct hd as [[d h] r]. intros E H. apply row_head_eq in E as (Nd & Hh & i & j & ->). unfold unassigned_rowb in H. apply orb_true_iff in H as [H|H].
  - exists d, h, i, j, (length r). split; [exact Nd|]. split; [apply is_hexes_all; exact Hh|]. left. rewrite <- (sp_pad r H). unfold row. cbn [map concat].
    rewrite app_nil_r, <- !app_assoc. reflexivity.
  - destruct (eat (B "---") r) as [r1|] eqn:E1; [|discriminate]. apply eat_eq in E1. destruct (eat (B "| ") (snd (span is_sp r1))) as [r2|] eqn:E2; [|discriminate]. apply eat_eq in E2.
    destruct (eat (B "reserved") r2) as [r3|] eqn:E3; [|discriminate]. apply eat_eq in E3. destruct (sp_rest r1) as [k Hk].
    exists d, h, i, j, k. split; [exact Nd|]. split; [apply is_hexes_all; exact Hh|]. right. exists (length r3). rewrite <- (sp_pad r3 H). rewrite E1, Hk, E2, E3.
    unfold row. cbn [map concat]. rewrite app_nil_r, <- !app_assoc. reflexivity.
Qed.
Lemma walk_ok ls : forall cs, walk ls cs = true ->
  (forall c, In c cs -> exists l, In l ls /\ coin_row l c) /\ (forall l, In l ls -> (exists c, In c cs /\ coin_row l c) \/ unassigned_row l).
Proof.
  induction ls as [|l ls IH]; intros cs W; cbn [walk] in W.
  - destruct cs; [|discriminate]. split; intros ? [].
  - destruct (row_head l) as [hd|] eqn:E; [|discriminate]. destruct cs as [|c cs].
    + apply andb_true_iff in W as [W1 W2]. destruct (IH _ W2) as [A A']. split; [intros ? []|]. intros l' [<-|H]; [right; eapply unassigned_rowb_ok; eassumption|auto].
    + destruct (coin_rowb hd c) eqn:Cr.
      * destruct (IH _ W) as [A A']. pose proof (coin_rowb_ok _ _ _ E Cr) as Q. split.
        -- intros c' [<-|H]; [exists l; split; [left; reflexivity|exact Q]|]. destruct (A c' H) as (l' & H1 & H2). exists l'. split; [right; exact H1|exact H2].
        -- intros l' [<-|H]; [left; exists c; split; [left; reflexivity|exact Q]|]. destruct (A' l' H) as [(c' & H1 & H2)|H1]; [left; exists c'; split; [right; exact H1|exact H2]|right; exact H1].
      * apply andb_true_iff in W as [W1 W2]. destruct (IH _ W2) as [A A']. split.
        -- intros c' H. destruct (A c' H) as (l' & H1 & H2). exists l'. split; [right; exact H1|exact H2].
        -- intros l' [<-|H]; [right; eapply unassigned_rowb_ok; eassumption|]. exact (A' l' H).
Qed.

(** ** Every row *)
Lemma is_prefix_iff t : forall s, is_prefix t s = true <-> exists b, s = t ++ b.
Proof.
  induction t as [|x t IH]; intros s; [split; [exists s; reflexivity|destruct s; reflexivity]|]. destruct s as [|y s]; cbn [is_prefix].
  - split; [discriminate|intros (b & E); discriminate E].
  - rewrite andb_true_iff, IH, byte_eqb_spec. split.
    + intros (-> & b & ->). exists b. reflexivity.
    + intros (b & E). injection E as -> ->. split; [reflexivity|]. exists b. reflexivity.
Qed.
Lemma Contains_iff t s : Contains s t = true <-> occurs t s.
Proof.
  unfold occurs. induction s as [|x s IH].
  - cbn [Contains]. rewrite orb_false_r, is_prefix_iff. split.
    + intros (b & E). exists [], b. exact E.
    + intros (a & b & E). destruct a; [|discriminate E]. exists b. exact E.
  - cbn [Contains]. rewrite orb_true_iff, is_prefix_iff, IH. split.
    + intros [(b & E)|(a & b & E)]; [exists [], b; exact E|exists (x :: a), b; cbn [app]; congruence].
    + intros (a & b & E). destruct a as [|y a]; [left; exists b; exact E|right]. injection E as -> E. exists a, b. exact E.
Qed.
Lemma ParseUint10_iff s v : ParseUint10 s = Some v <-> numeral s /\ number s < 2 ^ 32 /\ v = number s.
Proof.
  change (2 ^ 32) with 4294967296. rewrite ParseUint10_eq. rewrite number_dec. pose proof (numeral_iff s) as K. unfold all_digits in K. destruct s as [|c s].
  - split; [discriminate|]. intros (N & _). apply K in N. destruct N as [N _]. now elim N.
  - destruct (forallb is_digit (c :: s)) eqn:D.
    + destruct (Z.leb_spec (dec_val (c :: s)) 4294967295).
      * split; [intros E; injection E as <-|intros (_ & _ & ->); reflexivity]. split; [apply K; split; [discriminate|reflexivity]|]. split; [lia|reflexivity].
      * split; [discriminate|]. intros (_ & L & _). lia.
    + split; [discriminate|]. intros (N & _). apply K in N. destruct N as [_ N]. discriminate N.
Qed.
Lemma sentence_Join ws : Join (B " ") ws = sentence ws.
Proof. induction ws as [|w [|v r] IH]; [reflexivity|reflexivity|]. cbn [Join sentence] in *. rewrite IH. reflexivity. Qed.
Lemma SplitBar_pre_row pre cells : no_bar pre -> Forall no_bar cells -> SplitBar (pre ++ row cells) = pre :: cells.
Proof.
  intros Hc Hl. revert pre Hc. induction Hl as [|d ls Hd Hl IH]; intros c Hc; [cbn; rewrite app_nil_r; apply SplitBar_last; exact Hc|].
  unfold row. cbn [map concat]. rewrite <- app_assoc. rewrite SplitBar_app by exact Hc. f_equal. apply IH; assumption.
Qed.
Lemma cells_fields cs ws : Forall2 cell_of cs ws -> Forall no_bar cs /\ Forall (fun c => ~ In x0a c) cs /\ map TrimSpace cs = ws.
Proof.
  assert (PL : forall n, ~ In x0a (pad n)) by (intros k K; apply repeat_spec in K; discriminate).
  induction 1 as [|c w cs ws (i & j & -> & NB & TI & NL) _ (A & C & D)]; [repeat constructor|]. split; [|split].
  - constructor; [|exact A]. repeat apply app_no_bar; try apply pad_no_bar; exact NB.
  - constructor; [|exact C]. intros K. apply in_app_or in K as [K|K]; [exact (PL _ K)|]. apply in_app_or in K as [K|K]; [exact (NL K)|exact (PL _ K)].
  - cbn [map]. rewrite TrimSpace_pad, TrimSpace_tight by exact TI. rewrite D. reflexivity.
Qed.
Lemma last_map_tl (t p : bytes) rest : rest <> [] -> last (t :: p :: rest) [] = last rest [].
Proof. destruct rest; [intros N; now elim N|reflexivity]. Qed.
Theorem md_line_row pre cs ws : no_bar pre -> Forall2 cell_of cs ws ->
  (forall c, row_coin ws c -> md_line ParseUint10 (pre ++ row cs) = Some c) /\
  ((forall c, ~ row_coin ws c) -> md_line ParseUint10 (pre ++ row cs) = None).
Proof.
  intros NP F2. destruct (cells_fields _ _ F2) as (NB & _ & FE).
  assert (E : forall c, md_line ParseUint10 (pre ++ row cs) = Some c <-> row_coin ws c).
  2:{ split; [intros c Hc; apply E, Hc|]. intros N. destruct (md_line ParseUint10 (pre ++ row cs)) as [c|] eqn:M; [|reflexivity]. elim (N c). apply E. reflexivity. }
  intros c. unfold md_line. rewrite SplitBar_pre_row by assumption. cbn [tl]. rewrite FE. clear NB FE F2 cs.
  destruct ws as [|t [|p rest]]; [split; [discriminate|intros (t & p & rest & X & _); discriminate X]|split; [discriminate|intros (t' & p & rest & X & _); discriminate X]|].
  destruct rest as [|r0 rest]; [split; [discriminate|]|].
  { intros (t' & p' & rest & X & _ & _ & _ & _ & _ & _ & C & _). injection X as -> -> <-. destruct C as [(X & _)|(n & ns & X & _)]; discriminate X. }
  rewrite last_map_tl by discriminate.
  change (Nat.ltb 2 (length (t :: p :: r0 :: rest))) with true. cbn [andb nth skipn].
  assert (CR : forall x s, negb (Contains s x) = true <-> ~ occurs x s) by (intros x s; rewrite negb_true_iff, <- Contains_iff; destruct (Contains s x); split; congruence).
  destruct (negb (Contains (last (r0 :: rest) []) (B "reserved")) && negb (Contains (last (r0 :: rest) []) (B "dead"))) eqn:G.
  2:{ split; [discriminate|]. intros (t' & p' & rest' & X & _ & _ & _ & _ & _ & _ & _ & _ & R1 & R2). injection X as <- <- <-.
      apply CR in R1, R2. rewrite R1, R2 in G. discriminate G. }
  apply andb_true_iff in G as [G1 G2]. apply CR in G1, G2.
  destruct (ParseUint10 t) as [vt|] eqn:Pt.
  2:{ split; [discriminate|]. intros (t' & p' & rest' & X & N1 & N2 & L1 & L2 & _). injection X as <- <- <-.
      rewrite (proj2 (ParseUint10_iff t (number t))) in Pt by auto. discriminate Pt. }
  destruct (ParseUint10 p) as [vp|] eqn:Pp.
  2:{ split; [discriminate|]. intros (t' & p' & rest' & X & N1 & N2 & L1 & L2 & _). injection X as <- <- <-.
      rewrite (proj2 (ParseUint10_iff p (number p))) in Pp by auto. discriminate Pp. }
  apply ParseUint10_iff in Pt as (Nt & Lt & ->), Pp as (Np & Lp & ->).
  set (d := if Nat.eqb (length (t :: p :: r0 :: rest)) 3 then mkCoin (number t) (number p) [] r0 else mkCoin (number t) (number p) r0 (Join (B " ") rest)).
  assert (Dt : CType d = number t /\ PathComponent d = number p) by (unfold d; destruct (Nat.eqb _ 3); split; reflexivity).
  assert (Dn : (r0 :: rest = [CName d] /\ Symbol d = []) \/ exists n ns, r0 :: rest = Symbol d :: n :: ns /\ CName d = sentence (n :: ns)).
  { unfold d. destruct rest as [|n ns]; [left; split; reflexivity|right]. exists n, ns. split; [reflexivity|]. cbn [length Nat.eqb CName]. apply sentence_Join. }
  clearbody d.
  assert (U : forall c', row_coin (t :: p :: r0 :: rest) c' -> c' = d).
  { intros c' (t' & p' & rest' & X & _ & _ & _ & _ & T1 & P1 & C & _). injection X as <- <- <-. destruct c' as [ct cp cs cn], d as [dt dp ds dn].
    cbn [CType PathComponent Symbol CName] in *. destruct Dt as [-> ->]. subst ct cp.
    destruct C as [(X1 & ->)|(n & ns & X1 & ->)], Dn as [(X2 & ->)|(n2 & ns2 & X2 & ->)]; try congruence. }
  split.
  - intros M. assert (d = c /\ Symbol d ++ CName d <> []) as [<- NE].
    { destruct (Symbol d) as [|x sd] eqn:Es, (CName d) as [|y nd] eqn:En; try discriminate M; injection M as <-; (split; [reflexivity|discriminate]). }
    exists t, p, (r0 :: rest). destruct Dt as [Dt Dp]. split; [reflexivity|]. split; [exact Nt|]. split; [exact Np|]. split; [exact Lt|]. split; [exact Lp|]. split; [exact Dt|]. split; [exact Dp|].
    split; [exact Dn|]. split; [exact NE|]. split; assumption.
  - intros R. pose proof (U c R) as ->. destruct R as (t1 & p1 & rest1 & _ & _ & _ & _ & _ & _ & _ & _ & NE & _).
    destruct (Symbol d) as [|x sd], (CName d) as [|y nd]; try reflexivity. now elim NE.
Qed.
Lemma row_no_newline pre cs : ~ In x0a pre -> Forall (fun c => ~ In x0a c) cs -> ~ In x0a (pre ++ row cs).
Proof.
  intros Hp F K. apply in_app_or in K as [K|K]; [exact (Hp K)|]. unfold row in K. apply in_concat in K as (x & I & K). apply in_map_iff in I as (c & <- & I).
  apply in_app_or in K as [[K|[K|[]]]|K]; [discriminate K|discriminate K|]. rewrite Forall_forall in F. exact (F c I K).
Qed.
Theorem file_row pre cs ws : no_bar pre -> ~ In x0a pre -> Forall2 cell_of cs ws ->
  (forall c, row_coin ws c -> generateFileFromSlip44MD (pre ++ row cs) = StringForMD c ++ B "," ++ [x0a]) /\
  ((forall c, ~ row_coin ws c) -> generateFileFromSlip44MD (pre ++ row cs) = []).
Proof.
  intros NP NL F2. destruct (md_line_row pre cs ws NP F2) as [A C]. destruct (cells_fields _ _ F2) as (_ & NLs & _).
  unfold generateFileFromSlip44MD. rewrite coins_one by (apply row_no_newline; assumption). split.
  - intros c R. rewrite (A c R). cbn [map concat]. rewrite app_nil_r. reflexivity.
  - intros N. rewrite (C N). reflexivity.
Qed.

(** ** The printed forms *)
Lemma rev_head {A} (f : Z -> A) ds x r : rev (map f ds) = x :: r -> ds <> [] /\ x = f (last ds 0).
Proof.
  intros E. destruct (list_eq_dec Z.eq_dec ds []) as [->|N]; [discriminate|]. split; [exact N|].
  destruct (exists_last N) as (l & d & ->). rewrite map_app, rev_app_distr in E. cbn in E. injection E as <- _. rewrite last_last. reflexivity.
Qed.
Lemma Itoa_decimal n : 0 <= n -> decimal (Itoa n) n.
Proof.
  intros Hn. split; [apply Itoa_numeral; exact Hn|]. split; [rewrite number_dec; apply dec_Itoa; exact Hn|].
  destruct (Z.eq_dec n 0) as [->|N]; [left; reflexivity|]. right. intros r E. rewrite Itoa_pos in E by lia. apply rev_head in E as [Ne E].
  pose proof (digits_last 10 n ltac:(lia) Hn Ne) as L. pose proof (digits_range 10 n ltac:(lia)) as R.
  assert (In (last (digits 10 n) 0) (digits 10 n)) as I by (destruct (exists_last Ne) as (l & d & ->); rewrite last_last; apply in_or_app; right; left; reflexivity).
  rewrite Forall_forall in R. specialize (R _ I). cbv beta in R. apply (f_equal Zb) in E. rewrite dig_byte in E by exact R. change (Zb x30) with 48 in E. lia.
Qed.
Lemma hexdigit_16 d : 0 <= d < 16 -> nth_error (B "0123456789abcdef") (Z.to_nat d) = Some (hexdigit d).
Proof.
  intros Hd. assert (exists k, (k < 16)%nat /\ d = Z.of_nat k) as (k & L & ->) by (exists (Z.to_nat d); lia). clear Hd. rewrite Nat2Z.id.
  do 16 (destruct k as [|k]; [reflexivity|]). lia.
Qed.
Lemma hex_number_rev ds : Forall (fun d => 0 <= d < 16) ds -> hex_number (rev (map hexdigit ds)) (eval_le 16 ds).
Proof.
  induction 1 as [|d ds Hd H IH]; [constructor|]. cbn [map rev].
  replace (eval_le 16 (d :: ds)) with (16 * eval_le 16 ds + d) by (change (eval_le 16 (d :: ds)) with (d + 16 * eval_le 16 ds); ring).
  constructor; [exact IH|]. split; [lia|]. left. apply hexdigit_16. exact Hd.
Qed.
Lemma hex_text_hexadecimal n : 0 <= n -> hexadecimal (hex_text n) n.
Proof.
  intros Hn. destruct (Z.eq_dec n 0) as [->|N].
  { split; [discriminate|]. split; [|split; [repeat constructor|left; reflexivity]]. refine (hex_snoc [] x30 0 0 _ _); [constructor|]. split; [lia|left; reflexivity]. }
  unfold hex_text. replace (n <=? 0) with false by lia. pose proof (digits_range 16 n ltac:(lia)) as R. pose proof (digits_eval 16 n ltac:(lia) Hn) as V.
  split; [|split; [|split]].
  - intros C. apply (f_equal (@rev byte)) in C. rewrite rev_involutive in C. apply map_eq_nil in C. rewrite C in V. cbn in V. lia.
  - pose proof (hex_number_rev _ R) as G. rewrite V in G. exact G.
  - apply Forall_rev, Forall_map. eapply Forall_impl; [|exact R]. intros d Hd. cbv beta in *. apply (nth_error_In _ (Z.to_nat d)). apply hexdigit_16. exact Hd.
  - right. intros r E. apply rev_head in E as [Ne E]. pose proof (digits_last 16 n ltac:(lia) Hn Ne) as L.
    assert (In (last (digits 16 n) 0) (digits 16 n)) as I by (destruct (exists_last Ne) as (l & d & ->); rewrite last_last; apply in_or_app; right; left; reflexivity).
    rewrite Forall_forall in R. specialize (R _ I). cbv beta in R. change x30 with (hexdigit 0) in E. apply hexdigit_inj in E; lia.
Qed.
