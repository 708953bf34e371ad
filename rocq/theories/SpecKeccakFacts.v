(** SpecKeccakFacts.v - Keccak-256 of Hash.v is the sponge over Keccak-f[1600] of the Keccak reference. *)
From Coq Require Import ZifyBool ZifyNat.
From Verif Require Import Base BaseFacts Prims Hash HashFacts GoHash GoHashFacts SpecHash SpecSha2Facts SpecRmdFacts.

Lemma rol64_eq x n : 0 <= n <= 64 -> rol64 x n = ROTL 64 n x.
Proof.
  intros Hn. unfold rol64, ROTL. change M64 with (Z.ones 64).
  rewrite Z.shiftl_mul_pow2, Z.land_ones, Z.shiftr_div_pow2 by lia. reflexivity.
Qed.
Lemma not64_eq x : wrd 64 x -> Z.lxor x M64 = 2 ^ 64 - 1 - x.
Proof.
  intros Hx. apply Z.bits_inj'. intros i Hi. rewrite compl_bit by (exact Hx || lia).
  rewrite Z.lxor_spec. change M64 with (Z.ones 64). destruct (Z.ltb_spec i 64).
  - rewrite Z.ones_spec_low by lia. destruct (Z.testbit x i); reflexivity.
  - rewrite Z.ones_spec_high, (wrd_bit_high 64 x) by (exact Hx || lia). reflexivity.
Qed.
Lemma wrd_bits w x : 0 <= w -> 0 <= x -> (forall i, w <= i -> Z.testbit x i = false) -> wrd w x.
Proof.
  intros Hw Hx H. assert (E : x = x mod 2 ^ w); [|rewrite E; apply wrd_mod; exact Hw].
  rewrite <- Z.land_ones by exact Hw. apply Z.bits_inj'. intros i Hi. rewrite Z.land_spec. destruct (Z.ltb_spec i w).
  - rewrite Z.ones_spec_low by lia. rewrite Bool.andb_true_r. reflexivity.
  - rewrite H by lia. reflexivity.
Qed.
Lemma lxor_wrd w x y : 0 <= w -> wrd w x -> wrd w y -> wrd w (Z.lxor x y).
Proof.
  intros Hw Hx Hy. apply wrd_bits; [exact Hw|apply Z.lxor_nonneg; unfold wrd in *; lia|].
  intros i Hi. rewrite Z.lxor_spec, (wrd_bit_high w x), (wrd_bit_high w y) by assumption. reflexivity.
Qed.
Lemma land_wrd w x y : 0 <= w -> 0 <= x -> wrd w y -> wrd w (Z.land x y).
Proof.
  intros Hw Hx Hy. apply wrd_bits; [exact Hw|apply Z.land_nonneg; lia|].
  intros i Hi. rewrite Z.land_spec, (wrd_bit_high w y) by assumption. apply Bool.andb_false_r.
Qed.

(** ** Lists by index *)
Lemma nth_map' {X} (f : X -> Z) l i d : (i < length l)%nat -> nth i (map f l) 0 = f (nth i l d).
Proof. intros H. rewrite nth_indep with (d' := f d) by (rewrite map_length; exact H). apply map_nth. Qed.
Lemma nth_lt5 x : (x < 5)%nat -> nth x [0; 1; 2; 3; 4]%nat O = x.
Proof. intros H. do 5 (destruct x as [|x]; [reflexivity|]). lia. Qed.
Lemma nth_map_combine {X} (f : Z * X -> Z) l (l' : list X) n i d : length l = n -> length l' = n -> (i < n)%nat ->
  nth i (map f (combine l l')) 0 = f (nth i l 0, nth i l' d).
Proof.
  intros L L' H. rewrite (nth_map' f _ _ (0, d)) by (rewrite combine_length, L, L', Nat.min_id; exact H).
  rewrite combine_nth by congruence. reflexivity.
Qed.
(** lane x y of a list. For util/key_path.go:23-25. *)
Definition lane (a : list Z) (x y : nat) : Z := nth (x + 5 * y) a 0.
(** For util/key_path.go:23-25. *)
Definition agrees (a : list Z) (A : kstate) : Prop :=
  length a = 25%nat /\ (forall x y, (x < 5)%nat -> (y < 5)%nat -> lane a x y = A x y /\ wrd 64 (lane a x y)).
Lemma idx x y : (x < 5)%nat -> (y < 5)%nat -> ((x + 5 * y) mod 5 = x /\ x + 5 * y < 25)%nat.
Proof.
  intros Hx Hy. split; [|lia]. rewrite (Nat.mul_comm 5), Nat.mod_add by lia. apply Nat.mod_small. exact Hx.
Qed.
Lemma mod5 n : (n mod 5 < 5)%nat. Proof. apply Nat.mod_upper_bound. lia. Qed.
Lemma src_eq : forallb (fun p => (nth (fst p + 5 * snd p) keccak_src O =? (fst p + 3 * snd p) mod 5 + 5 * fst p)%nat)
  (list_prod (seq 0 5) (seq 0 5)) = true.
Proof. reflexivity. Qed.
Lemma src_nth x y : (x < 5)%nat -> (y < 5)%nat -> nth (x + 5 * y) keccak_src O = ((x + 3 * y) mod 5 + 5 * x)%nat.
Proof.
  intros Hx Hy. pose proof src_eq as E. rewrite forallb_forall in E. specialize (E (x, y)). cbn [fst snd] in E.
  apply Nat.eqb_eq. apply E. apply in_prod; apply in_seq; lia.
Qed.
Lemma rho_eq : forallb (fun p =>
   ((fst p =? 0) && (snd p =? 0))%nat ||
   existsb (fun t => let '(x, y) := rho_walk t in ((x =? fst p) && (y =? snd p))%nat &&
      (nth (x + 5 * y) keccak_rho 0 =? ((Z.of_nat t + 1) * (Z.of_nat t + 2) / 2) mod 64)) (seq 0 24))
  (list_prod (seq 0 5) (seq 0 5)) = true.
Proof. vm_compute. reflexivity. Qed.
Lemma rho_nth off x y : rho_offsets off -> (x < 5)%nat -> (y < 5)%nat -> nth (x + 5 * y) keccak_rho 0 = off x y.
Proof.
  intros [H0 Ht] Hx Hy. pose proof rho_eq as E. rewrite forallb_forall in E. specialize (E (x, y)). cbn [fst snd] in E.
  assert (Hi : In (x, y) (list_prod (seq 0 5) (seq 0 5))) by (apply in_prod; apply in_seq; lia).
  specialize (E Hi). apply Bool.orb_true_iff in E. destruct E as [E|E].
  - assert (x = O /\ y = O) as [-> ->] by lia. rewrite H0. reflexivity.
  - apply existsb_exists in E. destruct E as (t & Hin & E). apply in_seq in Hin. specialize (Ht t ltac:(lia)).
    destruct (rho_walk t) as [x' y']. apply Bool.andb_true_iff in E. destruct E as [E1 E2].
    assert (x' = x /\ y' = y) as [-> ->] by lia. rewrite Ht. apply Z.eqb_eq. exact E2.
Qed.
(** For util/key_path.go:23-25. *)
Definition keccak_off (x y : nat) : Z := nth (x + 5 * y) keccak_rho 0.
Lemma keccak_off_ok : rho_offsets keccak_off.
Proof.
  split; [reflexivity|].
  assert (E : forallb (fun t => let '(x, y) := rho_walk t in
      nth (x + 5 * y) keccak_rho 0 =? ((Z.of_nat t + 1) * (Z.of_nat t + 2) / 2) mod 64) (seq 0 24) = true) by (vm_compute; reflexivity).
  intros t Ht. rewrite forallb_forall in E. specialize (E t ltac:(apply in_seq; lia)).
  destruct (rho_walk t) as [x y]. apply Z.eqb_eq. exact E.
Qed.
Lemma rc_table : map RC (seq 0 24) = keccak_rc.
Proof. vm_compute. reflexivity. Qed.
Lemma rho_range : forallb (fun n => (0 <=? n) && (n <=? 64)) keccak_rho = true. Proof. reflexivity. Qed.
Lemma rc_range i : (i < 24)%nat -> wrd 64 (RC i).
Proof.
  intros Hi. assert (E : forallb (fun r => (0 <=? r) && (r <? 2 ^ 64)) (map RC (seq 0 24)) = true) by (rewrite rc_table; reflexivity).
  rewrite forallb_forall in E. specialize (E (RC i)). unfold wrd.
  assert (In (RC i) (map RC (seq 0 24))) by (apply in_map; apply in_seq; lia). specialize (E H). lia.
Qed.

(** ** One round *)
Section Round.
  Variables (off : nat -> nat -> Z) (a : list Z) (A : kstate).
  Hypothesis Hoff : rho_offsets off.
  Hypothesis Ha : agrees a A.
  Let at_ x y := nth (x + 5 * y)%nat a 0.
  Let c := map (fun x => Z.lxor (at_ x 0) (Z.lxor (at_ x 1) (Z.lxor (at_ x 2) (Z.lxor (at_ x 3) (at_ x 4)))))%nat [0; 1; 2; 3; 4]%nat.
  Let d := map (fun x => Z.lxor (nth (Nat.modulo (x + 4) 5) c 0) (rol64 (nth (Nat.modulo (x + 1) 5) c 0) 1)) [0; 1; 2; 3; 4]%nat.
  Let t := map (fun p => Z.lxor (fst p) (nth (Nat.modulo (snd p) 5) d 0)) (combine a (seq 0 25)).
  Let r := map (fun p => rol64 (fst p) (snd p)) (combine t keccak_rho).
  Let b := map (fun i => nth i r 0) keccak_src.
  Let C x := Z.lxor (Z.lxor (Z.lxor (Z.lxor (A x 0%nat) (A x 1%nat)) (A x 2%nat)) (A x 3%nat)) (A x 4%nat).
  Lemma la x y : (x < 5)%nat -> (y < 5)%nat -> nth (x + 5 * y) a 0 = A x y /\ wrd 64 (A x y).
  Proof. intros Hx Hy. destruct (proj2 Ha x y Hx Hy) as [E W]. unfold lane in *. rewrite E in *. split; [reflexivity|exact W]. Qed.
  Lemma c_nth x : (x < 5)%nat -> nth x c 0 = C x /\ wrd 64 (C x).
  Proof.
    intros Hx. unfold c. rewrite (nth_map' _ _ _ O) by exact Hx. rewrite nth_lt5 by exact Hx. unfold at_, C.
    destruct (la x 0 Hx ltac:(lia)) as [-> W0]. destruct (la x 1 Hx ltac:(lia)) as [-> W1].
    destruct (la x 2 Hx ltac:(lia)) as [-> W2]. destruct (la x 3 Hx ltac:(lia)) as [-> W3]. destruct (la x 4 Hx ltac:(lia)) as [-> W4].
    split; [rewrite !Z.lxor_assoc; reflexivity|]. repeat (apply lxor_wrd; [lia| |]); assumption.
  Qed.
  Lemma d_nth x : (x < 5)%nat -> nth x d 0 = Z.lxor (C ((x + 4) mod 5)%nat) (ROTL 64 1 (C ((x + 1) mod 5)%nat)) /\ wrd 64 (nth x d 0).
  Proof.
    intros Hx. unfold d. rewrite (nth_map' _ _ _ O) by exact Hx. rewrite nth_lt5 by exact Hx.
    destruct (c_nth _ (mod5 (x + 4))) as [-> W4]. destruct (c_nth _ (mod5 (x + 1))) as [-> W1].
    rewrite rol64_eq by lia. split; [reflexivity|]. apply lxor_wrd; [lia|exact W4|]. apply ROTL_wrd; [lia|exact W1].
  Qed.
  Lemma t_nth x y : (x < 5)%nat -> (y < 5)%nat -> nth (x + 5 * y) t 0 = k_theta A x y /\ wrd 64 (k_theta A x y).
  Proof.
    intros Hx Hy. destruct (idx x y Hx Hy) as [Hm Hl]. unfold t.
    rewrite (nth_map_combine _ a (seq 0 25) 25 _ O) by (exact (proj1 Ha) || reflexivity || exact Hl).
    cbn [fst snd]. rewrite seq_nth by exact Hl. cbn [Nat.add]. rewrite Hm. destruct (d_nth x Hx) as [E W].
    destruct (la x y Hx Hy) as [-> WA]. split; [rewrite E; reflexivity|]. unfold k_theta. cbv zeta.
    change (wrd 64 (Z.lxor (A x y) (Z.lxor (C ((x + 4) mod 5)%nat) (ROTL 64 1 (C ((x + 1) mod 5)%nat))))).
    rewrite <- E. apply lxor_wrd; [lia|exact WA|exact W].
  Qed.
  Lemma t_length : length t = 25%nat.
  Proof. unfold t. rewrite map_length, combine_length, (proj1 Ha). reflexivity. Qed.
  Lemma r_nth x y : (x < 5)%nat -> (y < 5)%nat ->
    nth (x + 5 * y) r 0 = k_rho off (k_theta A) x y /\ wrd 64 (k_rho off (k_theta A) x y).
  Proof.
    intros Hx Hy. destruct (idx x y Hx Hy) as [_ Hl]. unfold r.
    rewrite (nth_map_combine _ t keccak_rho 25 _ 0) by (exact t_length || reflexivity || exact Hl). cbn [fst snd].
    destruct (t_nth x y Hx Hy) as [-> W].
    assert (Ho : 0 <= nth (x + 5 * y) keccak_rho 0 <= 64).
    { pose proof rho_range as R. rewrite forallb_forall in R. specialize (R (nth (x + 5 * y) keccak_rho 0)).
      assert (In (nth (x + 5 * y) keccak_rho 0) keccak_rho) by (apply nth_In; exact Hl). specialize (R H). lia. }
    rewrite rol64_eq by exact Ho. unfold k_rho. rewrite (rho_nth off x y Hoff Hx Hy) in *.
    split; [reflexivity|]. apply ROTL_wrd; assumption.
  Qed.
  Lemma b_nth x y : (x < 5)%nat -> (y < 5)%nat ->
    nth (x + 5 * y) b 0 = k_pi (k_rho off (k_theta A)) x y /\ wrd 64 (k_pi (k_rho off (k_theta A)) x y).
  Proof.
    intros Hx Hy. destruct (idx x y Hx Hy) as [_ Hl]. unfold b. rewrite (nth_map' _ _ _ O) by exact Hl.
    rewrite src_nth by assumption. apply r_nth; [apply mod5|exact Hx].
  Qed.
  Lemma round_agrees i : (i < 24)%nat -> agrees (keccak_round (RC i) a) (k_iota i (k_chi (k_pi (k_rho off (k_theta A))))).
  Proof.
    intros Hi. split; [apply keccak_round_length|]. intros x y Hx Hy. destruct (idx x y Hx Hy) as [Hm Hl].
    set (chi := fun i : nat =>
      let x := Nat.modulo i 5 in let y5 := (i - x)%nat in
      Z.lxor (nth i b 0) (Z.land (Z.lxor (nth (Nat.modulo (x + 1) 5 + y5) b 0) M64) (nth (Nat.modulo (x + 2) 5 + y5) b 0))).
    assert (E : keccak_round (RC i) a = Z.lxor (chi O) (RC i) :: map chi (seq 1 24)) by reflexivity.
    assert (Hc : chi (x + 5 * y)%nat = k_chi (k_pi (k_rho off (k_theta A))) x y /\ wrd 64 (k_chi (k_pi (k_rho off (k_theta A))) x y)).
    { unfold chi. cbv zeta. rewrite Hm. replace (x + 5 * y - x)%nat with (5 * y)%nat by lia.
      destruct (b_nth x y Hx Hy) as [-> W0]. destruct (b_nth _ y (mod5 (x + 1)) Hy) as [-> W1].
      destruct (b_nth _ y (mod5 (x + 2)) Hy) as [-> W2]. rewrite not64_eq by exact W1. split; [reflexivity|].
      unfold k_chi. apply lxor_wrd; [lia|exact W0|]. apply land_wrd; [lia| |exact W2]. unfold wrd in W1. lia. }
    unfold lane. rewrite E. destruct Hc as [Hc Wc]. destruct x as [|x]; [destruct y as [|y]|].
    - cbn [Nat.add Nat.mul nth k_iota]. cbn [Nat.add Nat.mul] in Hc. rewrite Hc. split; [reflexivity|].
      apply lxor_wrd; [lia|exact Wc|apply rc_range; exact Hi].
    - replace (0 + 5 * S y)%nat with (S (4 + 5 * y)) in * by lia. cbn [nth k_iota].
      rewrite (nth_map' _ _ _ O) by (rewrite seq_length; lia). rewrite seq_nth by lia.
      change (1 + (4 + 5 * y))%nat with (S (4 + 5 * y)). rewrite Hc. split; [reflexivity|exact Wc].
    - replace (S x + 5 * y)%nat with (S (x + 5 * y)) in * by lia. cbn [nth k_iota].
      rewrite (nth_map' _ _ _ O) by (rewrite seq_length; lia). rewrite seq_nth by lia.
      change (1 + (x + 5 * y))%nat with (S (x + 5 * y)). rewrite Hc. split; [reflexivity|exact Wc].
  Qed.
End Round.
Lemma k_f_agrees off a A : rho_offsets off -> agrees a A -> agrees (keccak_f a) (k_f off A).
Proof.
  intros Hoff. unfold keccak_f, k_f. rewrite <- rc_table.
  assert (G : forall l, (forall i, In i l -> (i < 24)%nat) -> forall a A, agrees a A ->
    agrees (fold_left (fun a rc => keccak_round rc a) (map RC l) a)
           (fold_left (fun A i => k_iota i (k_chi (k_pi (k_rho off (k_theta A))))) l A)).
  { induction l as [|i l IH]; intros Hl a0 A0 H0; [exact H0|]. cbn [map fold_left]. apply IH.
    - intros j Hj. apply Hl. right. exact Hj.
    - apply round_agrees; [exact Hoff|exact H0|]. apply Hl. left. reflexivity. }
  apply G. intros i Hi. apply in_seq in Hi. lia.
Qed.

(** ** The sponge *)
Lemma word_le_wrd n b i : wrd (8 * Z.of_nat n) (word_le n b i).
Proof.
  unfold word_le, wrd. pose proof (be_Z_range (rev (firstn n (skipn (n * i) b)))) as R. split; [lia|].
  eapply Z.lt_le_trans; [apply R|]. unfold p256. replace (2 ^ (8 * Z.of_nat n)) with (256 ^ Z.of_nat n).
  - apply Z.pow_le_mono_r; [lia|]. rewrite rev_length, firstn_length. lia.
  - rewrite Z.pow_mul_r by lia. reflexivity.
Qed.
Lemma absorb_agrees off st A b : rho_offsets off -> agrees st A -> length b = 136%nat ->
  agrees (keccak_absorb st b)
    (k_f off (fun x y => if (x + 5 * y <? 17)%nat then Z.lxor (A x y) (word_le 8 b (x + 5 * y)) else A x y)).
Proof.
  intros Hoff [L HA] Lb. unfold keccak_absorb. apply k_f_agrees; [exact Hoff|].
  rewrite (words_le 8 17) by (exact Lb || lia).
  assert (Lw : length (map (word_le 8 b) (seq 0 17) ++ repeat 0 8) = 25%nat) by reflexivity.
  split; [rewrite map_length, combine_length, L, Lw; reflexivity|].
  intros x y Hx Hy. destruct (idx x y Hx Hy) as [_ Hl]. unfold lane.
  rewrite (nth_map_combine _ st _ 25 _ 0) by (exact L || exact Lw || exact Hl). cbn [fst snd].
  destruct (HA x y Hx Hy) as [E W]. unfold lane in E, W. rewrite E in *.
  destruct (Nat.ltb_spec (x + 5 * y) 17) as [Q|Q].
  - rewrite app_nth1 by (rewrite map_length, seq_length; exact Q). rewrite (nth_map' _ _ _ O) by (rewrite seq_length; exact Q).
    rewrite seq_nth by exact Q. cbn [Nat.add]. split; [reflexivity|]. apply lxor_wrd; [lia|exact W|apply (word_le_wrd 8)].
  - rewrite app_nth2 by (rewrite map_length, seq_length; exact Q). rewrite map_length, seq_length, nth_repeat, Z.lxor_0_r.
    split; [reflexivity|exact W].
Qed.
Lemma chunk136 N : forall P : bytes, length P = (N * 136)%nat ->
  chunk 136 P = map (fun j => firstn 136 (skipn (j * 136) P)) (seq 0 N).
Proof.
  induction N as [|N IH]; intros P L; [destruct P; [reflexivity|simpl in L; lia]|].
  rewrite chunk_cons; [|lia|intros ->; simpl in L; lia]. cbn [seq map]. f_equal.
  rewrite IH by (rewrite skipn_length; lia). rewrite <- seq_shift, map_map. apply map_ext. intros j.
  rewrite skipn_skipn. reflexivity.
Qed.
Lemma k_absorb_agrees off P N : rho_offsets off -> length P = (N * 136)%nat -> forall n, (n <= N)%nat ->
  agrees (fold_left keccak_absorb (map (fun j => firstn 136 (skipn (j * 136) P)) (seq 0 n)) (repeat 0 25)) (k_absorb off P n).
Proof.
  intros Hoff L. induction n as [|n IH]; intros Hn.
  - split; [reflexivity|]. intros x y Hx Hy. unfold lane. cbn [seq map fold_left k_absorb]. rewrite nth_repeat.
    split; [reflexivity|]. split; lia.
  - rewrite seq_S, map_app, fold_left_app. cbn [map fold_left k_absorb Nat.add]. cbv zeta.
    apply absorb_agrees; [exact Hoff|apply IH; lia|]. rewrite firstn_length, skipn_length, L. lia.
Qed.
(** For util/key_path.go:23-25. *)
Definition kpad (q : nat) : bytes := match q with 1%nat => [x81] | _ => x01 :: repeat x00 (q - 2) ++ [x80] end.
Lemma kpad_ok q : (0 < q)%nat -> length (kpad q) = q /\ be_Z (rev (kpad q)) = 1 + 2 ^ (8 * Z.of_nat q - 1).
Proof.
  intros Hq. destruct q as [|[|q]]; [lia|split; reflexivity|]. unfold kpad. replace (S (S q) - 2)%nat with q by lia. split.
  - cbn [length]. rewrite app_length, repeat_length. cbn [length]. lia.
  - cbn [rev]. rewrite rev_app_distr. cbn [rev app].
    assert (Er : forall n, rev (repeat x00 n) = repeat x00 n).
    { induction n as [|n IH]; [reflexivity|]. cbn [repeat rev]. rewrite IH. clear. induction n as [|n IH]; [reflexivity|]. cbn [repeat app]. f_equal. exact IH. }
    rewrite Er, be_Z_cons, be_Z_zeros. rewrite app_length, repeat_length. cbn [length]. change (be_Z [x01]) with 1. change (Zb x80) with 128.
    unfold p256. replace (8 * Z.of_nat (S (S q)) - 1) with (7 + 8 * Z.of_nat (q + 1)) by lia.
    rewrite Z.pow_add_r by lia. change (2 ^ 7) with 128. rewrite (Z.pow_mul_r 2 8) by lia. change (2 ^ 8) with 256. lia.
Qed.
Lemma kpad_unique z q : (0 < q)%nat -> length z = q -> be_Z (rev z) = 1 + 2 ^ (8 * Z.of_nat q - 1) -> z = kpad q.
Proof.
  intros Hq L E. destruct (kpad_ok q Hq) as [L' E'].
  rewrite <- (rev_involutive z), <- (rev_involutive (kpad q)). f_equal. apply be_Z_inj; [rewrite !rev_length; congruence|congruence].
Qed.
Theorem keccak_digest_iff off m dg : rho_offsets off -> (keccak_digest off m dg <-> dg = keccak256 m).
Proof.
  intros Hoff. set (q := (136 - length m mod 136)%nat).
  pose proof (Nat.mod_upper_bound (length m) 136 ltac:(lia)) as Hu. pose proof (Nat.div_mod (length m) 136 ltac:(lia)) as Hd.
  assert (Hq : (0 < q <= 136)%nat) by lia.
  destruct (kpad_ok q ltac:(lia)) as [Lk Ek].
  set (N := S (length m / 136)).
  assert (LP : length (m ++ kpad q) = (N * 136)%nat) by (rewrite app_length, Lk; unfold N; lia).
  assert (E0 : keccak_pad m = m ++ kpad q).
  { unfold keccak_pad, kpad. fold q. cbv zeta. destruct q as [|[|?]]; reflexivity. }
  assert (V : keccak256 m = firstn 32 (flat_map (fun i => rev (Z_be 8 (k_absorb off (m ++ kpad q) N (i mod 5)%nat (i / 5)%nat))) (seq 0 25))).
  { unfold keccak256. rewrite E0, (chunk136 N) by exact LP.
    destruct (k_absorb_agrees off (m ++ kpad q) N Hoff LP N (le_n _)) as [L A].
    set (st := fold_left keccak_absorb _ _) in *. f_equal. rewrite <- (map_nth_seq st 25 L) at 1.
    rewrite flat_map_concat_map, map_map, <- flat_map_concat_map.
    rewrite !flat_map_concat_map. f_equal. apply map_ext_in. intros i Hi. apply in_seq in Hi. do 2 f_equal.
    pose proof (Nat.div_mod i 5 ltac:(lia)) as Hdi. pose proof (mod5 i) as Hmi.
    assert (Hdv : (i / 5 < 5)%nat) by (apply Nat.div_lt_upper_bound; lia).
    rewrite <- (proj1 (A (i mod 5)%nat (i / 5)%nat Hmi Hdv)). unfold lane. f_equal. lia. }
  split.
  - intros (z & N' & Hz & HN & Hv & ->).
    assert (length z = q).
    { assert (N' * 136 = length m + length z)%nat by lia. unfold q. lia. }
    assert (z = kpad q) by (apply kpad_unique; [lia|assumption|rewrite <- H; exact Hv]). subst z.
    assert (N' = N) by (rewrite app_length in LP; lia). subst N'. symmetry. exact V.
  - intros ->. exists (kpad q), N. rewrite Lk. split; [exact Hq|]. split; [rewrite app_length, Lk in LP; exact LP|].
    split; [exact Ek|exact V].
Qed.
