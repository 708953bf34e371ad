(** GoFmtFacts.v - fmt, strings.Join, strings.Repeat, bytes.Compare and encoding/binary as written do what the model of the callers assumes. *)
From Verif Require GoNatOps.
From Verif Require Import Base BaseFacts GoStr Secp Bip32Path Bip32 Bip32KeyFacts Bip44 Util Hash WordLists Bip39InitFacts GoCodec GoCodecFacts ClaimsCodec GoFmt SpecPath Bip32PathFacts Bip32RegFacts SpecCoins Bip44MdFacts SpecFmt.

(** ** numbers *)
Lemma digits_step : forall b n, 2 <= b -> b <= n -> digits b n = n mod b :: digits b (n / b).
Proof.
  intros b n Hb Hn. assert (Q : 0 < n / b) by (apply Z.div_str_pos; lia).
  pose proof (digits_eval b (n / b) Hb ltac:(lia)) as E. pose proof (digits_range b (n / b) Hb) as R. pose proof (digits_last b (n / b) Hb ltac:(lia)) as L.
  assert (N : digits b (n / b) <> []) by (intros C; rewrite C in E; cbn in E; lia).
  rewrite <- (digits_eval_le b (n mod b :: digits b (n / b)) Hb).
  - change (eval_le b (n mod b :: digits b (n / b))) with (n mod b + b * eval_le b (digits b (n / b))). rewrite E. f_equal. pose proof (Z.div_mod n b ltac:(lia)). lia.
  - constructor; [apply Z.mod_pos_bound; lia|exact R].
  - intros _. destruct (digits b (n / b)) as [|d ds]; [contradiction|]. exact (L N).
Qed.
Lemma digits_one : forall b n, 2 <= b -> 0 < n < b -> digits b n = [n].
Proof.
  intros b n Hb Hn. rewrite <- (digits_eval_le b [n] Hb).
  - f_equal. unfold eval_le. cbn [fold_right]. lia.
  - repeat constructor; lia.
  - intros _. cbn [last]. lia.
Qed.
Lemma Itoa_small : forall u, 0 <= u < 10 -> Itoa u = [bZ (48 + u)].
Proof. intros u H. unfold Itoa. destruct (Z.leb_spec u 0); [replace u with 0 by lia; reflexivity|]. rewrite digits_one by lia. reflexivity. Qed.
Lemma Itoa_step : forall u, 10 <= u -> Itoa u = Itoa (u / 10) ++ [bZ (48 + u mod 10)].
Proof.
  intros u H. assert (0 < u / 10) by (apply Z.div_str_pos; lia). unfold Itoa. replace (u <=? 0) with false by lia. replace (u / 10 <=? 0) with false by lia.
  rewrite (digits_step 10 u) by lia. reflexivity.
Qed.
Lemma hex_small : forall u, 0 <= u < 16 -> hex_text u = [hexdigit u].
Proof. intros u H. unfold hex_text. destruct (Z.leb_spec u 0); [replace u with 0 by lia; reflexivity|]. rewrite digits_one by lia. reflexivity. Qed.
Lemma hex_step : forall u, 16 <= u -> hex_text u = hex_text (u / 16) ++ [hexdigit (u mod 16)].
Proof.
  intros u H. assert (0 < u / 16) by (apply Z.div_str_pos; lia). unfold hex_text. replace (u <=? 0) with false by lia. replace (u / 16 <=? 0) with false by lia.
  rewrite (digits_step 16 u) by lia. reflexivity.
Qed.
Lemma ldigit : forall u, 0 <= u < 16 -> get ldigits (Z.to_nat u) = Ret (hexdigit u).
Proof.
  intros u H. assert (I : In u [0; 1; 2; 3; 4; 5; 6; 7; 8; 9; 10; 11; 12; 13; 14; 15]) by (cbn [In]; lia).
  cbn [In] in I. repeat (destruct I as [<-|I]; [reflexivity|]). contradiction.
Qed.
Lemma ldigit10 : forall u, 0 <= u < 10 -> get ldigits (Z.to_nat u) = Ret (bZ (48 + u)).
Proof. intros u H. rewrite ldigit by lia. unfold hexdigit. replace (u <? 10) with true by lia. reflexivity. Qed.

(** the end of fmtInteger *)
(** In proofs; for bip32/utils.go:55, bip32/path.go:102-104. *)
Definition fin (r : Z * nat * bytes) : outcome (bytes * bytes) :=
  let '(u, i, buf) := r in
  match i with
  | S i => let! d := get ldigits (Z.to_nat u) in let! buf := put buf i d in Ret (skipn i buf, buf)
  | O => Panic
  end.
Lemma skip_pre : forall (a b : bytes), skipn (length a) (a ++ b) = b.
Proof. induction a as [|x a IH]; intros b; [reflexivity|exact (IH b)]. Qed.
Lemma int_dec_S : forall f u i buf, int_dec (S f) u (S i) buf = if u >=? 10 then let! buf := put buf i (bZ (48 + u - u / 10 * 10)) in int_dec f (u / 10) i buf else Ret (u, S i, buf).
Proof. reflexivity. Qed.
Lemma int_hex_S : forall f u i buf, int_hex (S f) u (S i) buf =
  if u >=? 16 then let! d := get ldigits (Z.to_nat (Z.land u 15)) in let! buf := put buf i d in int_hex f (Z.shiftr u 4) i buf else Ret (u, S i, buf).
Proof. reflexivity. Qed.
Lemma int_dec_ok : forall i u pre post, length pre = S i -> 0 <= u < 10 ^ Z.of_nat (S i) ->
  exists pre', (let! r := int_dec (S i) u (S i) (pre ++ post) in fin r) = Ret (Itoa u ++ post, pre' ++ Itoa u ++ post) /\ (length pre' + length (Itoa u))%nat = S i.
Proof.
  induction i as [|i IH]; intros u pre post L U.
  - rewrite int_dec_S. replace (u >=? 10) with false by lia. cbn [bind fin]. rewrite ldigit10 by lia. cbn [bind]. destruct pre as [|x [|y pre]]; try discriminate. exists []. rewrite Itoa_small by lia. split; reflexivity.
  - rewrite int_dec_S. destruct (Z.geb_spec u 10) as [G|G].
    + destruct (exists_last (l := pre) ltac:(intros ->; discriminate)) as (p & x & ->). rewrite app_length in L. cbn [length] in L.
      rewrite <- app_assoc. cbn [app]. rewrite put_mid by lia. cbn [bind].
      replace (48 + u - u / 10 * 10) with (48 + u mod 10) by (pose proof (Z.div_mod u 10 ltac:(lia)); lia).
      destruct (IH (u / 10) p (bZ (48 + u mod 10) :: post) ltac:(lia)) as (pre' & E & LL).
      { split; [apply Z.div_pos; lia|]. apply Z.div_lt_upper_bound; [lia|]. rewrite (Nat2Z.inj_succ (S i)), Z.pow_succ_r in U by lia. exact (proj2 U). }
      exists pre'. rewrite E. rewrite (Itoa_step u) by lia. rewrite <- app_assoc. split; [reflexivity|]. rewrite app_length. cbn [length]. lia.
    + cbn [bind fin]. rewrite ldigit10 by lia. cbn [bind]. destruct (exists_last (l := pre) ltac:(intros ->; discriminate)) as (p & x & ->). rewrite app_length in L. cbn [length] in L.
      rewrite <- app_assoc. cbn [app]. rewrite put_mid by lia. cbn [bind]. exists p. rewrite Itoa_small by lia. cbn [app length]. split; [|lia].
      replace (S i) with (length p) by lia. rewrite skip_pre. reflexivity.
Qed.
Lemma int_hex_ok : forall i u pre post, length pre = S i -> 0 <= u < 16 ^ Z.of_nat (S i) ->
  exists pre', (let! r := int_hex (S i) u (S i) (pre ++ post) in fin r) = Ret (hex_text u ++ post, pre' ++ hex_text u ++ post) /\ (length pre' + length (hex_text u))%nat = S i.
Proof.
  induction i as [|i IH]; intros u pre post L U.
  - rewrite int_hex_S. replace (u >=? 16) with false by lia. cbn [bind fin]. rewrite ldigit by lia. cbn [bind]. destruct pre as [|x [|y pre]]; try discriminate. exists []. rewrite hex_small by lia. split; reflexivity.
  - rewrite int_hex_S. destruct (Z.geb_spec u 16) as [G|G].
    + destruct (exists_last (l := pre) ltac:(intros ->; discriminate)) as (p & x & ->). rewrite app_length in L. cbn [length] in L.
      change 15 with (Z.ones 4). rewrite Z.land_ones by lia. change (2 ^ 4) with 16. rewrite ldigit by (apply Z.mod_pos_bound; lia). cbn [bind].
      rewrite <- app_assoc. cbn [app]. rewrite put_mid by lia. cbn [bind]. rewrite Z.shiftr_div_pow2 by lia. change (2 ^ 4) with 16.
      destruct (IH (u / 16) p (hexdigit (u mod 16) :: post) ltac:(lia)) as (pre' & E & LL).
      { split; [apply Z.div_pos; lia|]. apply Z.div_lt_upper_bound; [lia|]. rewrite (Nat2Z.inj_succ (S i)), Z.pow_succ_r in U by lia. exact (proj2 U). }
      exists pre'. rewrite E. rewrite (hex_step u) by lia. rewrite <- app_assoc. split; [reflexivity|]. rewrite app_length. cbn [length]. lia.
    + cbn [bind fin]. rewrite ldigit by lia. cbn [bind]. destruct (exists_last (l := pre) ltac:(intros ->; discriminate)) as (p & x & ->). rewrite app_length in L. cbn [length] in L.
      rewrite <- app_assoc. cbn [app]. rewrite put_mid by lia. cbn [bind]. exists p. rewrite hex_small by lia. cbn [app length]. split; [|lia].
      replace (S i) with (length p) by lia. rewrite skip_pre. reflexivity.
Qed.
Lemma fmtInteger_ok : forall buf u, length buf = 68%nat -> 0 <= u < 2 ^ 64 ->
  (exists buf', fmtInteger 10 u buf = Ret (Itoa u, buf') /\ length buf' = 68%nat) /\ (exists buf', fmtInteger 16 u buf = Ret (hex_text u, buf') /\ length buf' = 68%nat).
Proof.
  intros buf u L U. split; unfold fmtInteger; rewrite L; cbn [Z.eqb Pos.eqb].
  - destruct (int_dec_ok 67 u buf [] L) as (p & E & LL); [split; [lia|]; eapply Z.lt_le_trans; [exact (proj2 U)|]; vm_compute; discriminate|].
    rewrite !app_nil_r in E. exists (p ++ Itoa u). rewrite app_length, LL. split; [|reflexivity].
    rewrite <- E. destruct (int_dec 68 u 68 buf) as [[[u' i'] b']|]; reflexivity.
  - destruct (int_hex_ok 67 u buf [] L) as (p & E & LL); [split; [lia|]; eapply Z.lt_le_trans; [exact (proj2 U)|]; vm_compute; discriminate|].
    rewrite !app_nil_r in E. exists (p ++ hex_text u). rewrite app_length, LL. split; [|reflexivity].
    rewrite <- E. destruct (int_hex 68 u 68 buf) as [[[u' i'] b']|]; reflexivity.
Qed.
Lemma fmtSbx_ok : forall b out, fmtSbx b out = Ret (out ++ HexEncode b).
Proof.
  induction b as [|c b IH]; intros out; cbn [fmtSbx HexEncode flat_map]; [rewrite app_nil_r; reflexivity|].
  pose proof (Zb_range c) as R. rewrite Z.shiftr_div_pow2 by lia. change (2 ^ 4) with 16. change 15 with (Z.ones 4). rewrite Z.land_ones by lia. change (2 ^ 4) with 16.
  assert (0 <= Zb c / 16 < 16) by (split; [apply Z.div_pos; lia|apply Z.div_lt_upper_bound; lia]).
  rewrite !ldigit by (assumption || (apply Z.mod_pos_bound; lia)). cbn [bind]. rewrite IH, <- app_assoc. reflexivity.
Qed.
(** ** Sprintf *)
Lemma dec_unique : forall t n, decimal t n -> t = Itoa n.
Proof.
  intros t. induction t as [|c t IH] using rev_ind; intros n ([N D] & V & Z0); [contradiction|]. rewrite number_dec, dec_val_snoc in V.
  apply Forall_app in D as [D1 D2]. inversion D2 as [|? ? Dc _]; subst.
  assert (R : 0 <= Zb c - 48 < 10 /\ c = bZ (48 + (Zb c - 48))).
  { unfold digit in Dc. cbn in Dc. repeat (destruct Dc as [<-|Dc]; [vm_compute; repeat split; discriminate|]). contradiction. }
  destruct R as [R Ec]. destruct t as [|c0 t].
  - cbn [app]. change (dec_val []) with 0. rewrite Itoa_small by lia. replace (0 * 10 + (Zb c - 48)) with (Zb c - 48) by lia. rewrite <- Ec. reflexivity.
  - assert (Z1 : forall r, (c0 :: t) ++ [c] <> x30 :: r) by (destruct Z0 as [Z0|Z0]; [destruct t; discriminate Z0|exact Z0]).
    pose proof (IH (number (c0 :: t))) as E. assert (E' : c0 :: t = Itoa (number (c0 :: t))).
    { apply E. split; [split; [discriminate|exact D1]|]. split; [reflexivity|]. right. intros r C. apply (Z1 (r ++ [c])). rewrite C. reflexivity. }
    assert (P : 0 < number (c0 :: t)).
    { destruct (Z.lt_ge_cases 0 (number (c0 :: t))) as [P|P]; [exact P|]. exfalso. unfold Itoa in E'. replace (number (c0 :: t) <=? 0) with true in E' by lia.
      apply (Z1 [c]). rewrite E'. reflexivity. }
    rewrite E' at 1. rewrite number_dec in *. rewrite (Itoa_step (dec_val (c0 :: t) * 10 + (Zb c - 48))) by lia.
    rewrite Z.add_comm, Z.div_add, Z.mod_add by lia. rewrite Z.div_small, Z.mod_small by lia. rewrite <- Ec. reflexivity.
Qed.
Lemma hex_number_snoc : forall h c n, hex_number (h ++ [c]) n -> exists v d, n = 16 * v + d /\ hex_number h v /\ hex_digit c d.
Proof.
  intros h c n H. inversion H as [E|h' c' d v H1 H2 E1 E2]; [destruct h; discriminate|]. apply app_inj_tail in E1 as [-> ->]. exists v, d. auto.
Qed.
Lemma hex_number_nonneg : forall h n, hex_number h n -> 0 <= n.
Proof. intros h n H. induction H as [|h c n v H IH [D _]]; lia. Qed.
Lemma lower_digit : forall c d, In c (B "0123456789abcdef") -> hex_digit c d -> 0 <= d < 16 /\ c = hexdigit d.
Proof.
  intros c d I [P D]. assert (B16 : 0 <= d < 16).
  { split; [exact P|]. destruct D as [D|D]; assert (Q : nth_error (B "0123456789abcdef") (Z.to_nat d) <> None \/ nth_error (B "0123456789ABCDEF") (Z.to_nat d) <> None) by (rewrite D; (left; discriminate) || (right; discriminate));
      destruct Q as [Q|Q]; apply nth_error_Some in Q; cbn [length B] in Q; change (length (B "0123456789abcdef")) with 16%nat in Q || change (length (B "0123456789ABCDEF")) with 16%nat in Q; lia. }
  split; [exact B16|]. assert (M : In d [0; 1; 2; 3; 4; 5; 6; 7; 8; 9; 10; 11; 12; 13; 14; 15]) by (cbn [In]; lia). clear P B16.
  cbn [In] in M. repeat (destruct M as [<-|M]; [destruct D as [D|D]; cbn in D; injection D as <-; first [reflexivity|exfalso; cbn in I; repeat (destruct I as [I|I]; [discriminate I|]); exact I]|]). contradiction.
Qed.
Lemma hex_unique : forall t n, hexadecimal t n -> t = hex_text n.
Proof.
  intros t. induction t as [|c t IH] using rev_ind; intros n (N & H & D & Z0); [contradiction|].
  apply hex_number_snoc in H as (v & d & -> & H & Hd). apply Forall_app in D as [D1 D2]. inversion D2 as [|? ? Dc _]; subst.
  destruct (lower_digit c d Dc Hd) as [R Ec]. destruct t as [|c0 t].
  - cbn [app]. assert (v = 0) by (inversion H as [|h' ? ? ? ? ? E]; [reflexivity|destruct h'; discriminate]). subst v. rewrite hex_small by lia. rewrite Ec. repeat f_equal; lia.
  - assert (Z1 : forall r, (c0 :: t) ++ [c] <> x30 :: r) by (destruct Z0 as [Z0|Z0]; [destruct t; discriminate Z0|exact Z0]).
    assert (E' : c0 :: t = hex_text v).
    { apply IH. split; [discriminate|]. split; [exact H|]. split; [exact D1|]. right. intros r C. apply (Z1 (r ++ [c])). rewrite C. reflexivity. }
    assert (P : 0 < v).
    { destruct (Z.lt_ge_cases 0 v) as [P|P]; [exact P|]. exfalso. unfold hex_text in E'. replace (v <=? 0) with true in E' by lia. apply (Z1 [c]). rewrite E'. reflexivity. }
    rewrite E', (hex_step (16 * v + d)) by lia. rewrite (Z.mul_comm 16 v), (Z.add_comm (v * 16) d), Z.div_add, Z.mod_add by lia. rewrite Z.div_small, Z.mod_small by lia. rewrite <- Ec. reflexivity.
Qed.
Lemma two_hex : forall b, flat_map two b = HexEncode b.
Proof.
  intros b. apply flat_map_ext. intros c. unfold two. pose proof (Zb_range c).
  assert (0 <= Zb c / 16 < 16) by (split; [apply Z.div_pos; lia|apply Z.div_lt_upper_bound; lia]). pose proof (Z.mod_pos_bound (Zb c) 16 ltac:(lia)).
  assert (E : forall u, 0 <= u < 16 -> nth (Z.to_nat u) (B "0123456789abcdef") x00 = hexdigit u).
  { intros u U. assert (I : In u [0; 1; 2; 3; 4; 5; 6; 7; 8; 9; 10; 11; 12; 13; 14; 15]) by (cbn [In]; lia). cbn [In] in I. repeat (destruct I as [<-|I]; [reflexivity|]). contradiction. }
  rewrite !E by assumption. reflexivity.
Qed.
Lemma prints_ok : forall x v s buf, prints x v s -> length buf = 68%nat -> exists buf', printArg x v buf = Ret (s, buf') /\ length buf' = 68%nat /\ in_rng 97 122 v = true.
Proof.
  intros x v s buf [u v' t [-> | ->] U D|u t U D|s' v' [-> | ->]|b] L; cbn [printArg].
  - apply dec_unique in D as ->. destruct (fmtInteger_ok buf u L U) as [(b' & E & LL) _]. exists b'. change (Byte.eqb x64 x76 || Byte.eqb x64 x64) with true. cbn iota. auto.
  - apply dec_unique in D as ->. destruct (fmtInteger_ok buf u L U) as [(b' & E & LL) _]. exists b'. change (Byte.eqb x76 x76 || Byte.eqb x76 x64) with true. cbn iota. auto.
  - apply hex_unique in D as ->. destruct (fmtInteger_ok buf u L U) as [_ (b' & E & LL)]. exists b'. change (Byte.eqb x78 x76 || Byte.eqb x78 x64) with false. change (Byte.eqb x78 x78) with true. cbn iota. auto.
  - exists buf. auto.
  - exists buf. auto.
  - exists buf. change (Byte.eqb x78 x78) with true. cbn iota. rewrite fmtSbx_ok, two_hex. auto.
Qed.
Lemma doPrintf_ok : forall f a t, formats f a t -> forall buf out, length buf = 68%nat -> doPrintf f a buf out = Ret (out ++ t).
Proof.
  intros f a t F. induction F as [|c f a t N F IH|v x s f a t P F IH]; intros buf out L.
  - cbn [doPrintf]. rewrite app_nil_r. reflexivity.
  - cbn [doPrintf]. destruct (Byte.eqb c x25) eqn:E; [apply byte_eqb_spec in E; contradiction|]. rewrite IH by exact L. rewrite <- app_assoc. reflexivity.
  - destruct (prints_ok x v s buf P L) as (buf' & E & LL & R). cbn [doPrintf]. change (Byte.eqb x25 x25) with true. cbn iota. rewrite R, E. cbn [bind]. rewrite IH by exact LL. rewrite <- app_assoc. reflexivity.
Qed.
Lemma Sprintf_ok : forall buf f a t, length buf = 68%nat -> formats f a t -> GoSprintf buf f a = Ret t.
Proof. intros buf f a t L F. unfold GoSprintf. rewrite (doPrintf_ok f a t F buf [] L). reflexivity. Qed.
(** literal text in front *)
Lemma formats_lit : forall l f a t, ~ In x25 l -> formats f a t -> formats (l ++ f) a (l ++ t).
Proof.
  induction l as [|c l IH]; intros f a t N F; [exact F|]. cbn [app]. apply FmLit; [|apply IH; [|exact F]]; cbn [In] in N; intuition congruence.
Qed.
Ltac printing := first [apply PrS; auto|apply PrD; [auto|assumption|apply Itoa_decimal; lia]|apply PrX; [assumption|apply hex_text_hexadecimal; lia]].
Ltac no_pct := let H := fresh in intros H; cbn in H; repeat (destruct H as [H|H]; [discriminate H|]); exact H.

(** ** strings *)
Lemma join_loop_ok : forall l sep s, join_loop l sep s = s ++ flat_map (fun w => sep ++ w) l.
Proof. induction l as [|w l IH]; intros sep s; cbn [join_loop flat_map]; [rewrite app_nil_r; reflexivity|]. rewrite IH, <- !app_assoc. reflexivity. Qed.
Lemma Join_flat : forall sep l w, Join sep (w :: l) = w ++ flat_map (fun w => sep ++ w) l.
Proof.
  intros sep. induction l as [|v l IH]; intros w; [cbn [Join flat_map]; rewrite app_nil_r; reflexivity|].
  change (Join sep (w :: v :: l)) with (w ++ sep ++ Join sep (v :: l)). rewrite IH. cbn [flat_map]. rewrite <- !app_assoc. reflexivity.
Qed.
Lemma GoJoin_ok : forall l sep, GoJoin l sep = Join sep l.
Proof.
  intros [|w [|v l]] sep; [reflexivity|reflexivity|]. rewrite Join_flat. unfold GoJoin. apply join_loop_ok.
Qed.
Lemma concat_rep_len : forall (s : bytes) k, length (concat (repeat s k)) = (length s * k)%nat.
Proof. intros s. induction k as [|k IH]; cbn [repeat concat length]; [lia|]. rewrite app_length, IH. lia. Qed.
Lemma concat_rep_app : forall (s : bytes) j k, concat (repeat s j) ++ concat (repeat s k) = concat (repeat s (k + j)).
Proof. intros s j k. rewrite <- concat_app, <- repeat_app, Nat.add_comm. reflexivity. Qed.
Lemma firstn_rep : forall (s : bytes) j k, (j <= k)%nat -> firstn (length s * j) (concat (repeat s k)) = concat (repeat s j).
Proof.
  intros s j k L. replace k with ((k - j) + j)%nat by lia. rewrite <- concat_rep_app, <- concat_rep_len, firstn_app, Nat.sub_diag, firstn_all. cbn [firstn]. apply app_nil_r.
Qed.
Lemma repeat_loop_ok : forall (s : bytes) count fuel k, s <> [] -> (1 <= k <= count)%nat -> (count - k <= fuel)%nat ->
  repeat_loop fuel (length s * count) (length s * count) (concat (repeat s k)) = Ret (concat (repeat s count)).
Proof.
  intros s count. induction fuel as [|fuel IH]; intros k N K F; assert (L0 : (0 < length s)%nat) by (destruct s; [contradiction|cbn [length]; lia]).
  - replace k with count by lia. cbn [repeat_loop]. rewrite concat_rep_len, Nat.ltb_irrefl. reflexivity.
  - cbn [repeat_loop]. rewrite concat_rep_len. destruct (Nat.ltb_spec (length s * k) (length s * count)) as [C|C].
    + assert (KC : (k < count)%nat) by nia.
      set (j := Nat.min k (count - k)).
      assert (J : (if (length s * k <? length s * count - length s * k)%nat then (length s * k)%nat else (length s * count - length s * k)%nat) = (length s * j)%nat).
      { subst j. destruct (Nat.ltb_spec (length s * k) (length s * count - length s * k)) as [D|D]; [rewrite Nat.min_l by nia; reflexivity|rewrite Nat.min_r by nia; nia]. }
      rewrite J. replace (length s * count <? length s * j)%nat with false by (symmetry; apply Nat.ltb_ge; subst j; nia).
      rewrite firstn_rep by (subst j; lia). rewrite concat_rep_app. apply IH; [exact N|subst j; lia|subst j; lia].
    + assert (k = count) by nia. subst k. reflexivity.
Qed.
Lemma GoRepeat_ok : forall s count, GoRepeat s count = Ret (concat (repeat s count)).
Proof.
  intros s [|[|count]]; [reflexivity|cbn [GoRepeat repeat concat]; rewrite app_nil_r; reflexivity|]. unfold GoRepeat. cbv zeta.
  destruct (Nat.eqb_spec (length s * S (S count)) 0) as [E|E].
  - assert (s = []) by (destruct s; [reflexivity|cbn [length] in E; lia]). subst s. f_equal. symmetry. apply length_zero_iff_nil. rewrite concat_rep_len. reflexivity.
  - pose proof (repeat_loop_ok s (S (S count)) (length s * S (S count)) 1) as H. cbn [repeat concat] in H. rewrite app_nil_r in H. apply H; [intros ->; cbn in E; lia|lia|].
    destruct s; [cbn in E; lia|cbn [length]; nia].
Qed.
Lemma repeat_one : forall (c : byte) n, concat (repeat [c] n) = repeat c n.
Proof. intros c. induction n as [|n IH]; [reflexivity|]. cbn [repeat concat app]. rewrite IH. reflexivity. Qed.

(** ** bytes *)
Lemma GoCompare_geb : forall a b, (GoCompare a b >=? 0) = bytes_geb a b.
Proof.
  induction a as [|x a IH]; intros [|y b]; [reflexivity..|]. cbn [GoCompare bytes_geb].
  destruct (Z.ltb_spec (Zb x) (Zb y)), (Z.ltb_spec (Zb y) (Zb x)), (Z.eqb_spec (Zb x) (Zb y)); try lia; try reflexivity. apply IH.
Qed.
Lemma GoCompare_refl : forall a, GoCompare a a = 0.
Proof. induction a as [|x a IH]; [reflexivity|]. cbn [GoCompare]. rewrite Z.ltb_irrefl. exact IH. Qed.
Lemma GoCompare_eq : forall a b, GoCompare a b = 0 <-> a = b.
Proof.
  intros a b. split; [|intros ->; apply GoCompare_refl]. revert b. induction a as [|x a IH]; intros [|y b] H; try discriminate; [reflexivity|]. cbn [GoCompare] in H.
  destruct (Z.ltb_spec (Zb x) (Zb y)); [discriminate|]. destruct (Z.ltb_spec (Zb y) (Zb x)); [discriminate|]. f_equal; [apply Zb_inj; lia|apply IH; exact H].
Qed.
Lemma GoCompare_lt : forall a b, GoCompare a b = -1 <-> lex_lt a b.
Proof.
  intros a b. split.
  - revert b. induction a as [|x a IH]; intros [|y b] H; try discriminate; [left; exists y, b; reflexivity|]. cbn [GoCompare] in H.
    destruct (Z.ltb_spec (Zb x) (Zb y)) as [L|L]; [right; exists [], x, y, a, b; auto|]. destruct (Z.ltb_spec (Zb y) (Zb x)) as [M|M]; [discriminate|].
    assert (x = y) by (apply Zb_inj; lia). subst y. destruct (IH b H) as [(c & r & ->)|(p & u & v & r & s & -> & -> & C)].
    + left. exists c, r. reflexivity.
    + right. exists (x :: p), u, v, r, s. auto.
  - intros [(c & r & ->)|(p & x & y & r & s & -> & -> & C)].
    + induction a as [|x a IH]; [reflexivity|]. cbn [app GoCompare]. rewrite Z.ltb_irrefl. exact IH.
    + induction p as [|u p IH]; cbn [app GoCompare]; [replace (Zb x <? Zb y) with true by lia; reflexivity|]. rewrite Z.ltb_irrefl. exact IH.
Qed.
Lemma GoCompare_sym : forall a b, GoCompare b a = - GoCompare a b.
Proof.
  induction a as [|x a IH]; intros [|y b]; [reflexivity..|]. cbn [GoCompare].
  destruct (Z.ltb_spec (Zb x) (Zb y)), (Z.ltb_spec (Zb y) (Zb x)); try lia; try reflexivity; apply IH.
Qed.

(** ** encoding/binary *)
Lemma lor_sh : forall k a b, 0 <= k -> 0 <= a < 2 ^ k -> 0 <= b -> Z.lor a (Z.shiftl b k) = a + 2 ^ k * b.
Proof. exact GoNatOps.lor_shift. Qed.
Lemma GoUint32_ok : forall b0 b1 b2 b3 r, GoUint32 (b0 :: b1 :: b2 :: b3 :: r) = Ret (be_Z [b0; b1; b2; b3]).
Proof.
  intros b0 b1 b2 b3 r. unfold GoUint32. cbn [get nth_error bind]. f_equal.
  pose proof (Zb_range b0). pose proof (Zb_range b1). pose proof (Zb_range b2). pose proof (Zb_range b3).
  rewrite (lor_sh 8) by (try lia; exact H2). rewrite (lor_sh 16) by (change (2 ^ 8) with 256; change (2 ^ 16) with 65536; lia). rewrite (lor_sh 24) by (change (2 ^ 8) with 256; change (2 ^ 16) with 65536; change (2 ^ 24) with 16777216; lia).
  unfold be_Z. cbn [fold_left]. change (2 ^ 8) with 256; change (2 ^ 16) with 65536; change (2 ^ 24) with 16777216. lia.
Qed.
Lemma GoUint32_panic : forall b, (length b < 4)%nat -> GoUint32 b = Panic.
Proof. intros [|a [|b [|c [|d r]]]] H; try reflexivity. cbn in H. lia. Qed.
Lemma GoUint16_ok : forall b0 b1 r, GoUint16 (b0 :: b1 :: r) = Ret (be_Z [b0; b1]).
Proof.
  intros b0 b1 r. unfold GoUint16. cbn [get nth_error bind]. f_equal. pose proof (Zb_range b0). pose proof (Zb_range b1).
  rewrite (lor_sh 8) by (try lia; exact H0). unfold be_Z. cbn [fold_left]. change (2 ^ 8) with 256. lia.
Qed.
Lemma GoPutUint32_ok : forall a b c d r v, GoPutUint32 (a :: b :: c :: d :: r) v = Ret (Z_be 4 v ++ r).
Proof.
  intros a b c d r v. unfold GoPutUint32. cbn [put bind Z_be app]. rewrite !Z.shiftr_div_pow2 by lia. rewrite !Z.div_div by lia. reflexivity.
Qed.
Lemma GoPutUint32_panic : forall b v, (length b < 4)%nat -> GoPutUint32 b v = Panic.
Proof. intros [|a [|b [|c [|d r]]]] v H; try reflexivity. cbn in H. lia. Qed.
Lemma GoPutUint16_ok : forall a b r v, GoPutUint16 (a :: b :: r) v = Ret (Z_be 2 v ++ r).
Proof. intros a b r v. unfold GoPutUint16. cbn [put bind Z_be app]. rewrite !Z.shiftr_div_pow2 by lia. reflexivity. Qed.

(** ** the calls *)
Section Calls.
Variable buf : bytes.
Hypothesis L : length buf = 68%nat.
Lemma GoAppendVal_ok : forall p v, 0 <= v < 2 ^ 64 -> GoAppendVal buf p v = Ret (p ++ B "/" ++ Itoa v).
Proof.
  intros p v V. unfold GoAppendVal. apply Sprintf_ok; [exact L|]. change (B "%s/%d") with (x25 :: x73 :: B "/" ++ x25 :: x64 :: []).
  apply FmArg; [printing|]. apply formats_lit; [no_pct|]. rewrite <- (app_nil_r (Itoa v)). apply FmArg; [printing|constructor].
Qed.
Lemma GoValText_ok : forall v, 0 <= v < 2 ^ 64 -> GoValText buf v = Ret (val_text v).
Proof.
  intros v V. unfold GoValText, val_text, FirstHardenedChild. destruct (Z.geb_spec v 2147483648).
  - assert (R : 0 <= v mod 2147483648 < 2 ^ 64) by (pose proof (Z.mod_pos_bound v 2147483648 ltac:(lia)); assert (2147483648 < 2 ^ 64) by reflexivity; lia).
    apply Sprintf_ok; [exact L|]. change (B "%d'") with (x25 :: x64 :: B "'"). apply FmArg; [printing|apply (formats_lit (B "'") [] [] []); [no_pct|constructor]].
  - apply Sprintf_ok; [exact L|]. change (B "%d") with (x25 :: x64 :: []). rewrite <- (app_nil_r (Itoa v)). apply FmArg; [printing|constructor].
Qed.
Lemma GoValidate_ok : forall key, GoValidatePrivateKey buf (Z_bytes secp_n) key = Ret (ValidatePrivateKey key).
Proof.
  intros key. unfold GoValidatePrivateKey. rewrite (Sprintf_ok buf _ _ (HexEncode key) L).
  - rewrite GoRepeat_ok. cbn [bind]. change (B "0") with [x30]; rewrite repeat_one, GoCompare_geb. unfold ValidatePrivateKey. destruct (bytes_eqb (HexEncode key) (repeat x30 64)), (bytes_geb key (Z_bytes secp_n)); reflexivity.
  - change (B "%x") with (x25 :: x78 :: []). rewrite <- (app_nil_r (HexEncode key)), <- two_hex. apply FmArg; constructor.
Qed.
Lemma GoWordError_ok : forall v, GoWordError buf v = Ret (B "word `" ++ v ++ B "` not found in reverse map").
Proof.
  intros v. unfold GoWordError. apply Sprintf_ok; [exact L|]. change (B "word `%v` not found in reverse map") with (B "word `" ++ x25 :: x76 :: B "` not found in reverse map").
  apply formats_lit; [no_pct|]. apply FmArg; [printing|]. rewrite <- (app_nil_r (B "` not found in reverse map")). apply formats_lit; [no_pct|constructor].
Qed.
Lemma GoStringForMD_ok : forall c, 0 <= CType c < 2 ^ 64 -> 0 <= PathComponent c < 2 ^ 64 -> GoStringForMD buf c = Ret (StringForMD c).
Proof.
  intros c T P. unfold GoStringForMD. apply Sprintf_ok; [exact L|]. unfold StringForMD.
  change (B "{Type: %d, PathComponent: 0x%x, Symbol: ""%s"", Name: ""%s""}") with
    (B "{Type: " ++ x25 :: x64 :: B ", PathComponent: 0x" ++ x25 :: x78 :: B ", Symbol: " ++ [x22] ++ x25 :: x73 :: [x22] ++ B ", Name: " ++ [x22] ++ x25 :: x73 :: [x22] ++ B "}").
  repeat first [apply formats_lit; [no_pct|] | apply FmArg; [printing|]].
  rewrite <- (app_nil_r (B "}")). apply formats_lit; [no_pct|constructor].
Qed.
Lemma GoCoinString_ok : forall c, 0 <= CType c < 2 ^ 64 -> GoCoinString buf c = Ret (CoinString c).
Proof.
  intros c T. unfold GoCoinString. apply Sprintf_ok; [exact L|]. unfold CoinString.
  change (B "%s (Type %d)") with (x25 :: x73 :: B " (Type " ++ x25 :: x64 :: B ")"). cbv zeta.
  replace (match Symbol c with [] => CName c | _ => (Symbol c ++ B " - ") ++ CName c end) with (match Symbol c with [] => CName c | _ => Symbol c ++ B " - " ++ CName c end)
    by (destruct (Symbol c); [reflexivity|rewrite <- app_assoc; reflexivity]).
  repeat first [apply formats_lit; [no_pct|] | apply FmArg; [printing|]].
  rewrite <- (app_nil_r (B ")")). apply formats_lit; [no_pct|constructor].
Qed.
End Calls.
Lemma hex_digits_text : forall n v acc, 0 <= v < 16 ^ Z.of_nat (S n) -> hex_digits (S n) v acc = hex_text v ++ acc.
Proof.
  induction n as [|n IH]; intros v acc V; cbn [hex_digits].
  - change (16 ^ Z.of_nat 1) with 16 in V. rewrite (Z.div_small v 16) by lia. rewrite hex_small, Z.mod_small by lia. reflexivity.
  - destruct (Z.eqb_spec (v / 16) 0) as [E|E].
    + assert (v < 16) by (pose proof (Z.div_mod v 16 ltac:(lia)); pose proof (Z.mod_pos_bound v 16 ltac:(lia)); lia). rewrite hex_small, Z.mod_small by lia. reflexivity.
    + change (hex_digits (S n) (v / 16) (hexdigit (v mod 16) :: acc) = hex_text v ++ acc).
      assert (16 <= v) by (destruct (Z.le_gt_cases 16 v); [assumption|rewrite Z.div_small in E by lia; lia]).
      rewrite IH; [rewrite (hex_step v), <- app_assoc by lia; reflexivity|].
      rewrite (Nat2Z.inj_succ (S n)), Z.pow_succ_r in V by lia. split; [apply Z.div_pos; lia|apply Z.div_lt_upper_bound; lia].
Qed.
Lemma Sprintf_x_text : forall v, 0 <= v < 2 ^ 64 -> Sprintf_x v = hex_text v.
Proof. intros v V. unfold Sprintf_x. rewrite hex_digits_text by exact V. apply app_nil_r. Qed.
Lemma GoWlInit_ok : forall buf text crc, length buf = 68%nat -> GoWlInit buf text crc = wl_init text crc.
Proof.
  intros buf text crc L. assert (R : 0 <= crc32 text < 2 ^ 64) by (pose proof (crc32_range text); assert (2 ^ 32 < 2 ^ 64) by reflexivity; lia).
  unfold GoWlInit, wl_init. rewrite C87_crc_l. cbn [bind]. rewrite Sprintf_x_text by exact R. rewrite (Sprintf_ok buf _ _ (hex_text (crc32 text)) L); [reflexivity|].
  change (B "%x") with (x25 :: x78 :: []). rewrite <- (app_nil_r (hex_text (crc32 text))) at 1. apply FmArg; [printing|constructor].
Qed.
