(** Bip32PrefixFacts.v - the first characters of the base58 text are determined by the version bytes. *)
From Verif Require Import Base BaseFacts Prims Base58 Base58Facts Bip32Path Bip32Reg Bip32 Bip32RegFacts Bip32KeyFacts SpecBip32 Bip32Facts.

Lemma digits_unique b ds n : 2 <= b -> Forall (fun d => 0 <= d < b) ds -> (ds <> [] -> last ds 0 <> 0) -> eval_le b ds = n -> digits b n = ds.
Proof. intros Hb HR HL <-. apply digits_eval_le; assumption. Qed.
Lemma digits_step b n : 2 <= b -> 0 < n -> digits b n = n mod b :: digits b (n / b).
Proof.
  intros Hb Hn. apply digits_unique; [exact Hb| | |].
  - constructor; [apply Z.mod_pos_bound; lia|]. apply digits_range. exact Hb.
  - intros _. pose proof (digits_last b (n / b) Hb ltac:(apply Z.div_pos; lia)) as L.
    pose proof (digits_eval b (n / b) Hb ltac:(apply Z.div_pos; lia)) as E.
    destruct (digits b (n / b)) as [|d ds] eqn:D; [|exact (L ltac:(discriminate))].
    cbn in E. cbn [last]. intros C. pose proof (Z.div_mod n b ltac:(lia)). lia.
  - change (eval_le b (n mod b :: digits b (n / b))) with (n mod b + b * eval_le b (digits b (n / b))).
    rewrite digits_eval by (lia || (apply Z.div_pos; lia)). pose proof (Z.div_mod n b ltac:(lia)). lia.
Qed.
Lemma digits_0 b : digits b 0 = [].
Proof. reflexivity. Qed.
Lemma skipn_digits b m : 2 <= b -> forall n, 0 <= n -> skipn m (digits b n) = digits b (n / b ^ Z.of_nat m).
Proof.
  intros Hb. induction m as [|m IH]; intros n Hn.
  - cbn [skipn]. rewrite Z.pow_0_r, Z.div_1_r. reflexivity.
  - destruct (Z.eq_dec n 0) as [->|N].
    + rewrite Z.div_0_l by (apply Z.pow_nonzero; lia). rewrite digits_0. reflexivity.
    + rewrite digits_step by lia. cbn [skipn]. rewrite IH by (apply Z.div_pos; lia).
      rewrite Z.div_div by (try apply Z.pow_pos_nonneg; lia). f_equal. f_equal. rewrite Nat2Z.inj_succ, Z.pow_succ_r by lia. reflexivity.
Qed.
Lemma digits_length b m : 2 <= b -> forall n, 0 <= n -> b ^ Z.of_nat m <= n < b ^ Z.of_nat (S m) -> length (digits b n) = S m.
Proof.
  intros Hb. induction m as [|m IH]; intros n Hn HR.
  - rewrite digits_step by lia. change (Z.of_nat 1) with 1 in HR. rewrite Z.pow_1_r in HR. rewrite Z.div_small by lia. reflexivity.
  - assert (0 < b ^ Z.of_nat (S m)) by (apply Z.pow_pos_nonneg; lia).
    rewrite digits_step by lia. cbn [length]. f_equal. apply IH; [apply Z.div_pos; lia|].
    rewrite (Nat2Z.inj_succ (S m)), (Z.pow_succ_r _ (Z.of_nat (S m))), (Nat2Z.inj_succ m), Z.pow_succ_r in HR by lia.
    rewrite (Nat2Z.inj_succ m), Z.pow_succ_r by lia. split.
    + apply Z.div_le_lower_bound; lia.
    + apply Z.div_lt_upper_bound; lia.
Qed.

(** The interval of the 82-byte numbers with version [v], in terms of its number of base-58 digits and top digits. *)
(** In proofs; for bip32/bip32.go:271. *)
Definition lead_ok (m : nat) (q v : Z) : bool :=
  (58 ^ Z.of_nat m <=? v * 256 ^ 78) && ((v + 1) * 256 ^ 78 <=? 58 ^ Z.of_nat (S m)) &&
  (q * 58 ^ Z.of_nat (m - 3) <=? v * 256 ^ 78) && ((v + 1) * 256 ^ 78 <=? (q + 1) * 58 ^ Z.of_nat (m - 3)) &&
  (3 <=? Z.of_nat m) && (0 <=? q) && (16777216 <=? v).
(** In proofs; for bip32/bip32.go:271. *)
Definition top (q : Z) : bytes := rev (map b58char (digits 58 q)).
Lemma firstn_rev_skipn {A} (l : list A) n : firstn n (rev l) = rev (skipn (length l - n) l).
Proof. rewrite firstn_rev. reflexivity. Qed.
Lemma text_of m q v b : lead_ok m q (be_Z v) = true -> length v = 4%nat -> length b = 78%nat ->
  firstn 4 (Encode58 (v ++ b)) = top q /\ length (Encode58 (v ++ b)) = S m.
Proof.
  intros HC Lv Lb. unfold lead_ok in HC. rewrite !andb_true_iff, !Z.leb_le in HC.
  destruct HC as ((((((C1 & C2) & C3) & C4) & C5) & C6) & C7).
  assert (Hn : be_Z (v ++ b) = be_Z v * 256 ^ 78 + be_Z b) by (rewrite be_Z_app, Lb; reflexivity).
  assert (Hb : 0 <= be_Z b < 256 ^ 78) by (pose proof (be_Z_range b) as R; rewrite Lb in R; exact R).
  set (n := be_Z (v ++ b)) in *.
  assert (R : be_Z v * 256 ^ 78 <= n < (be_Z v + 1) * 256 ^ 78) by lia.
  assert (Z0 : count_lead x00 (v ++ b) = O).
  { destruct v as [|x v]; [discriminate|]. cbn [app count_lead]. destruct (Byte.eqb x x00) eqn:E; [|reflexivity]. apply byte_eqb_spec in E. subst x.
    rewrite be_Z_cons in C7. change (Zb x00) with 0 in C7. pose proof (be_Z_range v) as Rv. injection Lv as Lv. rewrite Lv in *. change (p256 3) with 16777216 in *. lia. }
  unfold Encode58. fold n. rewrite Z0. cbn [repeat app].
  assert (N0 : 0 <= n) by (apply be_Z_range).
  assert (LD : length (digits 58 n) = S m) by (apply digits_length; lia).
  split; [|rewrite rev_length, map_length; exact LD].
  rewrite firstn_rev_skipn, map_length, LD. unfold top. f_equal. rewrite skipn_map. f_equal.
  rewrite skipn_digits by lia. f_equal. replace (S m - 4)%nat with (m - 3)%nat by lia.
  symmetry. assert (P : 0 < 58 ^ Z.of_nat (m - 3)) by (apply Z.pow_pos_nonneg; lia).
  apply (Z.div_unique n _ q (n - 58 ^ Z.of_nat (m - 3) * q)); [left; lia|ring].
Qed.

(** Number of digits minus one and leading four digits for a version. *)
(** In proofs; for bip32/bip32.go:271. *)
Definition ndig (v : Z) : nat := if v =? 0x426c6b73 then 111 else if v =? 0x42696720 then 111 else 110.
(** In proofs; for bip32/bip32.go:271. *)
Definition lead (v : Z) : Z := v * 256 ^ 78 / 58 ^ Z.of_nat (ndig v - 3).
Lemma lead_chk : forallb (fun h => lead_ok (ndig (PvtKeyFlag h)) (lead (PvtKeyFlag h)) (PvtKeyFlag h) &&
                                   lead_ok (ndig (PubKeyFlag h)) (lead (PubKeyFlag h)) (PubKeyFlag h)) registered = true.
Proof. vm_compute. reflexivity. Qed.
(** The entries whose documented prefixes are wrong. *)
(** In proofs; for bip32/bip32.go:271. *)
Definition misdocumented (h : VersionBytes) : bool :=
  bytes_eqb (Coin h) (B "Nexa") || bytes_eqb (Coin h) (B "Nexa Testnet") || bytes_eqb (Coin h) (B "Vertcoin").
Lemma prefix_chk : forallb (fun h => Bool.eqb (negb (misdocumented h)) (bytes_eqb (top (lead (PvtKeyFlag h))) (PvKeyPrefix h)) &&
   Bool.eqb (negb (misdocumented h)) (bytes_eqb (top (lead (PubKeyFlag h))) (PubKeyPrefix h))) registered = true.
Proof. vm_compute. reflexivity. Qed.
Lemma ndig_chk : forallb (fun h => misdocumented h || ((ndig (PvtKeyFlag h) =? 110)%nat && (ndig (PubKeyFlag h) =? 110)%nat)) registered = true.
Proof. vm_compute. reflexivity. Qed.
Theorem prefix_text H h k : prims_ok H -> In h registered -> wf_key k ->
  (GetVersion k = PvtKeyFlag h -> firstn 4 (B58Serialize H k) = top (lead (PvtKeyFlag h)) /\ length (B58Serialize H k) = S (ndig (PvtKeyFlag h))) /\
  (GetVersion k = PubKeyFlag h -> firstn 4 (B58Serialize H k) = top (lead (PubKeyFlag h)) /\ length (B58Serialize H k) = S (ndig (PubKeyFlag h))).
Proof.
  intros HP Hh HK. pose proof (proj1 (forallb_forall _ _) lead_chk h Hh) as C. apply andb_true_iff in C as [C1 C2].
  assert (A : forall fl, GetVersion k = fl -> lead_ok (ndig fl) (lead fl) fl = true ->
     firstn 4 (B58Serialize H k) = top (lead fl) /\ length (B58Serialize H k) = S (ndig fl)).
  { intros fl E C. destruct (key_split k HK) as (v & d & f & n & c & data & -> & HF & LD). unfold GetVersion in E. rewrite get_ver in E by exact HF.
    pose proof HF as (lv & lf & ln & lc). subst fl.
    assert (B : B58Serialize H (xkey v d f n c data) = Encode58 (v ++ ([d] ++ f ++ n ++ c ++ data) ++ checksum H (xkey v d f n c data))).
    { unfold B58Serialize. rewrite Serialize_spec by exact HK. rewrite nonzero_chk; [unfold xkey at 1; rewrite <- !app_assoc; reflexivity|exact HK|].
      intros Z. assert (v = repeat x00 4) by (rewrite <- (get_ver v d f n c data HF), Z; reflexivity). subst v.
      unfold lead_ok in C. rewrite !andb_true_iff in C. destruct C as [_ C]. discriminate. }
    rewrite B. apply text_of; [exact C|exact lv|]. rewrite app_length, checksum_length by exact HP. rewrite !app_length, lf, ln, lc, LD. reflexivity. }
  split; intros E; apply A; assumption.
Qed.
