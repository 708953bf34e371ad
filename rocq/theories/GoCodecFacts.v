(** GoCodecFacts.v - the encoders as their packages write them give the encoders of the model. *)
From Coq Require Import ZifyBool ZifyNat.
From Verif Require Import Base BaseFacts Bip32 GoStr GoStrFacts Base58 Base58Facts GoCodec SpecCodec.

Lemma get_nth {A} (l : list A) i d : (i < length l)%nat -> get l i = Ret (nth i l d).
Proof. intros H. unfold get. rewrite (nth_error_nth' l d H). reflexivity. Qed.
Lemma get_app_l {A} (l r : list A) i : (i < length l)%nat -> get (l ++ r) i = get l i.
Proof. intros H. unfold get. rewrite nth_error_app1 by exact H. reflexivity. Qed.
Lemma get_mid {A} (l r : list A) a i : i = length l -> get (l ++ a :: r) i = Ret a.
Proof. intros ->. unfold get. rewrite nth_error_app2, Nat.sub_diag by lia. reflexivity. Qed.
Lemma put_mid {A} (l r : list A) a b i : i = length l -> put (l ++ a :: r) i b = Ret (l ++ b :: r).
Proof.
  intros ->. induction l as [|x l IH]; [reflexivity|]. cbn [app length put]. rewrite IH. reflexivity.
Qed.

(** ** base58 *)
Lemma table_val_chk : forallb (fun n => match nth_error b58_table n, b58val (bZ (Z.of_nat n)) with
  | Some t, Some d => (t =? d) && negb (t =? 255) | Some t, None => t =? 255 | None, _ => false end) (seq 0 256) = true.
Proof. vm_compute. reflexivity. Qed.
Lemma table_val c : exists t, get b58_table (Z.to_nat (Zb c)) = Ret t /\
  match b58val c with Some d => t = d /\ (t =? 255) = false | None => (t =? 255) = true end.
Proof.
  pose proof table_val_chk as E. rewrite forallb_forall in E. pose proof (Zb_range c) as R.
  specialize (E (Z.to_nat (Zb c)) ltac:(apply in_seq; lia)). rewrite Z2Nat.id, bZ_Zb in E by lia. unfold get.
  destruct (nth_error b58_table (Z.to_nat (Zb c))) as [t|]; [|discriminate E]. exists t. split; [reflexivity|].
  destruct (b58val c) as [d|]; [|exact E]. lia.
Qed.
Lemma dec_loop_ok p : forall q a j,
  dec_loop (length p) (p ++ q) a j = Ret (match b58digits p with
    | None => None | Some ds => Some (a + j * fold_left (fun a d => a * 58 + d) ds 0) end).
Proof.
  induction p as [|c p IH] using rev_ind; intros q a j.
  - cbn [length dec_loop b58digits fold_left]. do 2 f_equal. lia.
  - rewrite app_length. cbn [length]. rewrite Nat.add_1_r. cbn [dec_loop]. rewrite <- app_assoc. cbn [app].
    rewrite get_mid by reflexivity. cbn [bind]. destruct (table_val c) as (t & E & H). rewrite E. cbn [bind].
    rewrite b58digits_app. cbn [b58digits]. destruct (b58val c) as [d|].
    + destruct H as [-> H]. rewrite H. rewrite IH. destruct (b58digits p) as [ds|]; [|reflexivity].
      do 2 f_equal. rewrite fold_left_app. cbn [fold_left]. lia.
    + rewrite H. destruct (b58digits p); reflexivity.
Qed.
Lemma num_zeros_ok p : forall q fuel, (length p <= fuel)%nat -> num_zeros fuel (q ++ p) (length q) = Ret (length q + count_lead x31 p)%nat.
Proof.
  induction p as [|c p IH]; intros q fuel Hf.
  - rewrite app_nil_r. cbn [count_lead]. rewrite Nat.add_0_r. destruct fuel as [|f]; [reflexivity|]. cbn [num_zeros].
    rewrite Nat.ltb_irrefl. reflexivity.
  - destruct fuel as [|f]; [cbn [length] in Hf; lia|]. cbn [num_zeros].
    replace (length q <? length (q ++ c :: p))%nat with true by (rewrite app_length; cbn [length]; lia).
    rewrite get_mid by reflexivity. cbn [bind count_lead]. destruct (Byte.eqb c x31).
    + pose proof (IH (q ++ [c]) f ltac:(cbn [length] in Hf; lia)) as E. rewrite <- app_assoc in E. cbn [app] in E.
      rewrite app_length in E. cbn [length] in E. rewrite Nat.add_1_r in E. rewrite E. f_equal. lia.
    + f_equal. lia.
Qed.
Lemma copy_from_ok k (s : bytes) : copy_from (repeat x00 (k + length s)) k s = repeat x00 k ++ s.
Proof.
  unfold copy_from. rewrite repeat_length. rewrite repeat_app, firstn_app, repeat_length, Nat.sub_diag. cbn [firstn].
  rewrite firstn_all2 by (rewrite repeat_length; lia). rewrite app_nil_r. f_equal.
  rewrite firstn_all2 by lia. rewrite skipn_all2 by (rewrite app_length, !repeat_length; lia). apply app_nil_r.
Qed.
Theorem GoDecode58_ok s : GoDecode58 s = Ret (Decode58 s).
Proof.
  unfold GoDecode58, Decode58. pose proof (dec_loop_ok s [] 0 1) as E. rewrite app_nil_r in E. rewrite E. cbn [bind].
  destruct (b58digits s) as [ds|]; [|reflexivity]. pose proof (num_zeros_ok s [] (length s) (le_n _)) as N.
  cbn [app length Nat.add] in N. rewrite N. cbn [bind]. rewrite copy_from_ok.
  do 2 f_equal. f_equal. lia.
Qed.
Lemma enc_loop_ok : forall fuel x a k, 0 <= x -> x < 2 ^ Z.of_nat fuel -> (Z.log2 x < Z.of_nat k \/ x = 0) ->
  enc_loop fuel x a = Ret (a ++ map b58char (digs k 58 x)).
Proof.
  induction fuel as [|f IH]; intros x a k Hx Hf Hk; cbn [enc_loop].
  - change (2 ^ Z.of_nat 0) with 1 in Hf. assert (x = 0) as -> by lia. cbn [Z.ltb Z.compare].
    destruct k; cbn [digs Z.leb Z.compare map]; rewrite app_nil_r; reflexivity.
  - destruct (Z.ltb_spec 0 x) as [P|P].
    + destruct Hk as [Hk| ->]; [|lia]. destruct k as [|k]; [pose proof (Z.log2_nonneg x); lia|].
      pose proof (Z.mod_pos_bound x 58 ltac:(lia)) as M.
      rewrite (get_nth alphabet _ x31) by (change (length alphabet) with 58%nat; lia). cbn [bind].
      rewrite Nat2Z.inj_succ, Z.pow_succ_r in Hf by lia.
      rewrite (IH (x / 58) _ k).
      * cbn [digs]. replace (x <=? 0) with false by lia. cbn [map]. rewrite <- app_assoc. reflexivity.
      * apply Z.div_pos; lia.
      * apply Z.div_lt_upper_bound; lia.
      * destruct (Z.eq_dec (x / 58) 0) as [Q|Q]; [right; exact Q|left].
        assert (0 < x / 58) by (pose proof (Z.div_pos x 58); lia).
        assert (x / 58 <= x / 2) by (apply Z.div_le_compat_l; lia).
        assert (L : Z.log2 (x / 58) <= Z.log2 (x / 2)) by (apply Z.log2_le_mono; assumption).
        rewrite <- Z.shiftr_div_pow2 with (n := 1) in L by lia. rewrite Z.log2_shiftr in L by lia.
        assert (58 <= x) by (destruct (Z_lt_ge_dec x 58); [rewrite Z.div_small in Q by lia; lia|lia]).
        assert (Z.log2 2 <= Z.log2 x) by (apply Z.log2_le_mono; lia). change (Z.log2 2) with 1 in *. lia.
    + assert (x = 0) as -> by lia. destruct k; cbn [digs Z.leb Z.compare map]; rewrite app_nil_r; reflexivity.
Qed.
Lemma repeat_snoc {A} (x : A) n : repeat x n ++ [x] = x :: repeat x n.
Proof. induction n as [|n IH]; [reflexivity|]. cbn [repeat app]. f_equal. exact IH. Qed.
Lemma enc_zeros_ok b : forall a, enc_zeros b a = a ++ repeat x31 (count_lead x00 b).
Proof.
  induction b as [|c b IH]; intros a; cbn [enc_zeros count_lead repeat]; [rewrite app_nil_r; reflexivity|].
  destruct (Byte.eqb c x00); [|cbn [repeat]; rewrite app_nil_r; reflexivity].
  rewrite IH, <- app_assoc. reflexivity.
Qed.
Lemma swap_loop_ok n : forall (p m s : bytes), length p = length s -> (length m / 2 = n)%nat ->
  swap_loop n (length p) (p ++ m ++ s) = Ret (p ++ rev m ++ s).
Proof.
  induction n as [|n IH]; intros p m s L N.
  - cbn [swap_loop]. destruct m as [|a [|b m]]; [reflexivity|reflexivity|].
    exfalso. cbn [length] in N. pose proof (Nat.div_mod (S (S (length m))) 2 ltac:(lia)). lia.
  - destruct m as [|a m]; [discriminate N|]. destruct (rev m) as [|z m'] eqn:R.
    { apply (f_equal (@rev byte)) in R. rewrite rev_involutive in R. subst m. cbn in N. discriminate N. }
    assert (M : m = rev m' ++ [z]) by (rewrite <- (rev_involutive m), R; reflexivity). subst m.
    cbn [swap_loop]. rewrite !app_length. cbn [length]. rewrite app_length. cbn [length].
    set (t := rev m') in *. assert (Lt : length t = length m') by apply rev_length.
    replace (length p + (S (length t + 1) + length s) - 1 - length p)%nat with (length (p ++ a :: t))
      by (rewrite app_length; cbn [length]; lia).
    replace (p ++ (a :: t ++ [z]) ++ s) with ((p ++ a :: t) ++ z :: s) by (rewrite <- !app_assoc; cbn [app]; rewrite <- app_assoc; reflexivity).
    rewrite get_mid by reflexivity. cbn [bind].
    replace ((p ++ a :: t) ++ z :: s) with (p ++ a :: (t ++ z :: s)) by (rewrite <- app_assoc; reflexivity).
    rewrite get_mid by reflexivity. cbn [bind]. rewrite put_mid by reflexivity. cbn [bind].
    replace (p ++ z :: t ++ z :: s) with ((p ++ z :: t) ++ z :: s) by (rewrite <- app_assoc; reflexivity).
    rewrite put_mid by (rewrite !app_length; reflexivity). cbn [bind].
    replace ((p ++ z :: t) ++ a :: s) with ((p ++ [z]) ++ t ++ (a :: s)) by (rewrite <- !app_assoc; reflexivity).
    replace (S (length p)) with (length (p ++ [z])) by (rewrite app_length; cbn [length]; lia).
    rewrite IH.
    + cbn [rev]. rewrite R. rewrite <- !app_assoc. cbn [app]. unfold t. rewrite rev_involutive. try rewrite <- app_assoc. reflexivity.
    + rewrite app_length. cbn [length]. lia.
    + cbn [length] in N. rewrite app_length in N. cbn [length] in N.
      replace (S (length t + 1)) with (length t + 1 * 2)%nat in N by lia. rewrite Nat.div_add in N by lia. lia.
Qed.
Theorem GoEncode58_ok b : GoEncode58 b = Ret (Encode58 b).
Proof.
  unfold GoEncode58, Encode58, digits. pose proof (be_Z_range b) as R.
  rewrite (enc_loop_ok _ (be_Z b) [] (S (Z.to_nat (Z.log2 (be_Z b))))).
  - cbn [bind app]. rewrite enc_zeros_ok. set (m := map b58char _ ++ _).
    pose proof (swap_loop_ok (length m / 2) [] m [] eq_refl eq_refl) as E. cbn [app length] in E. rewrite !app_nil_r in E.
    rewrite E. f_equal. unfold m. rewrite rev_app_distr. f_equal.
    generalize (count_lead x00 b). clear. induction n as [|n IH]; [reflexivity|]. cbn [repeat rev]. rewrite IH. apply repeat_snoc.
  - apply R.
  - eapply Z.lt_le_trans; [apply R|]. unfold p256. rewrite Nat2Z.inj_mul. rewrite Z.pow_mul_r by lia. apply Z.le_refl.
  - left. pose proof (Z.log2_nonneg (be_Z b)). lia.
Qed.

(** ** encoding/hex *)
Lemma hextable_chk : forallb (fun n => match nth_error hextable (Z.to_nat (Z.shiftr (Z.of_nat n) 4)), nth_error hextable (Z.to_nat (Z.land (Z.of_nat n) 15)) with
  | Some h, Some l => Byte.eqb h (hexdigit (Z.of_nat n / 16)) && Byte.eqb l (hexdigit (Z.of_nat n mod 16)) | _, _ => false end) (seq 0 256) = true.
Proof. vm_compute. reflexivity. Qed.
Lemma hextable_get v : get hextable (Z.to_nat (Z.shiftr (Zb v) 4)) = Ret (hexdigit (Zb v / 16)) /\
  get hextable (Z.to_nat (Z.land (Zb v) 15)) = Ret (hexdigit (Zb v mod 16)).
Proof.
  pose proof hextable_chk as E. rewrite forallb_forall in E. pose proof (Zb_range v) as R.
  specialize (E (Z.to_nat (Zb v)) ltac:(apply in_seq; lia)). rewrite Z2Nat.id in E by lia. unfold get.
  destruct (nth_error hextable (Z.to_nat (Z.shiftr (Zb v) 4))) as [h|]; [|discriminate E].
  destruct (nth_error hextable (Z.to_nat (Z.land (Zb v) 15))) as [l|]; [|discriminate E].
  apply andb_prop in E. destruct E as [E1 E2]. apply byte_eqb_spec in E1, E2. subst. split; reflexivity.
Qed.
Lemma hex_enc_loop_ok src : forall d, hex_enc_loop src (length d) (d ++ repeat x00 (length src * 2)) = Ret (d ++ HexEncode src).
Proof.
  induction src as [|v src IH]; intros d; [reflexivity|]. change (length (v :: src) * 2)%nat with (S (S (length src * 2))). cbn [hex_enc_loop repeat].
  destruct (hextable_get v) as [E1 E2]. rewrite E1. cbn [bind]. rewrite put_mid by reflexivity. cbn [bind]. rewrite E2. cbn [bind].
  replace (d ++ hexdigit (Zb v / 16) :: x00 :: repeat x00 (length src * 2)) with ((d ++ [hexdigit (Zb v / 16)]) ++ x00 :: repeat x00 (length src * 2))
    by (rewrite <- app_assoc; reflexivity).
  rewrite put_mid by (rewrite app_length; reflexivity). cbn [bind].
  pose proof (IH (d ++ [hexdigit (Zb v / 16); hexdigit (Zb v mod 16)])) as E. rewrite app_length in E. cbn [length] in E.
  rewrite <- !app_assoc in *. cbn [app] in *. rewrite E. reflexivity.
Qed.
Theorem GoHexEncode_ok s : GoHexEncode s = Ret (HexEncode s).
Proof. exact (hex_enc_loop_ok s []). Qed.
Lemma rev_table_chk : forallb (fun n => match nth_error reverseHexTable n, hexval (bZ (Z.of_nat n)) with
  | Some t, Some d => (t =? d) && (0 <=? t) && (t <=? 15) | Some t, None => 15 <? t | None, _ => false end) (seq 0 256) = true.
Proof. vm_compute. reflexivity. Qed.
Lemma rev_table c : exists t, get reverseHexTable (Z.to_nat (Zb c)) = Ret t /\
  match hexval c with Some d => t = d /\ 0 <= d <= 15 | None => 15 < t end.
Proof.
  pose proof rev_table_chk as E. rewrite forallb_forall in E. pose proof (Zb_range c) as R.
  specialize (E (Z.to_nat (Zb c)) ltac:(apply in_seq; lia)). rewrite Z2Nat.id, bZ_Zb in E by lia. unfold get.
  destruct (nth_error reverseHexTable (Z.to_nat (Zb c))) as [t|]; [|discriminate E]. exists t. split; [reflexivity|].
  destruct (hexval c) as [d|]; lia.
Qed.
(** The bytes of the pairs before the first that is not two digits, and the error: util/util.go:58, util/key_path.go:17, 29. *)
Fixpoint hex_prefix (s : bytes) : bytes * option hex_err :=
  match s with
  | [] => ([], None)
  | [a] => ([], Some (match hexval a with None => InvalidByteError a | Some _ => HexErrLength end))
  | a :: b :: r =>
    match hexval a, hexval b with
    | None, _ => ([], Some (InvalidByteError a))
    | _, None => ([], Some (InvalidByteError b))
    | Some x, Some y => let '(l, e) := hex_prefix r in (bZ (x * 16 + y) :: l, e)
    end
  end.
Lemma lor_digits a b : 0 <= a <= 15 -> 0 <= b <= 15 -> Z.lor (Z.shiftl a 4) b = a * 16 + b.
Proof.
  intros Ha Hb. assert (E : forallb (fun p => Z.lor (Z.shiftl (Z.of_nat (fst p)) 4) (Z.of_nat (snd p)) =? Z.of_nat (fst p) * 16 + Z.of_nat (snd p))
    (list_prod (seq 0 16) (seq 0 16)) = true) by reflexivity.
  rewrite forallb_forall in E. specialize (E (Z.to_nat a, Z.to_nat b) ltac:(apply in_prod; apply in_seq; lia)).
  cbn [fst snd] in E. rewrite !Z2Nat.id in E by lia. lia.
Qed.
(** State of the in-place loop: [d] is written, [w] has been read and will not be read again, [r] is still to be read. *)
Lemma hex_dec_loop_ok : forall fuel r d w, (length r < fuel)%nat -> length w = length d ->
  exists src, hex_dec_loop fuel (d ++ w ++ r) (length d) (2 * length d + 1) =
    Ret (src, (length d + length (fst (hex_prefix r)))%nat, snd (hex_prefix r)) /\
    firstn (length d + length (fst (hex_prefix r))) src = d ++ fst (hex_prefix r).
Proof.
  induction fuel as [|f IH]; intros r d w Hf Lw; [lia|].
  assert (L0 : length (d ++ w ++ r) = (2 * length d + length r)%nat) by (rewrite !app_length; lia).
  assert (F0 : firstn (length d + 0) (d ++ w ++ r) = d ++ []).
  { rewrite Nat.add_0_r, app_nil_r, firstn_app, firstn_all, Nat.sub_diag. cbn [firstn]. apply app_nil_r. }
  assert (E0 : d ++ w ++ r = (d ++ w) ++ r) by (rewrite app_assoc; reflexivity).
  assert (L2 : length (d ++ w) = (2 * length d)%nat) by (rewrite app_length; lia).
  cbn [hex_dec_loop]. rewrite L0.
  destruct r as [|a [|b r]].
  - cbn [length hex_prefix fst snd]. replace (2 * length d + 1 <? 2 * length d + 0)%nat with false by lia.
    replace (Nat.odd (2 * length d + 0)) with false by (rewrite Nat.add_0_r, Nat.odd_mul; reflexivity).
    eexists. rewrite Nat.add_0_r at 1. split; [reflexivity|]. exact F0.
  - cbn [length]. replace (2 * length d + 1 <? 2 * length d + 1)%nat with false by lia.
    replace (Nat.odd (2 * length d + 1)) with true by (rewrite Nat.odd_add, Nat.odd_mul; reflexivity).
    rewrite E0. rewrite get_mid by lia. cbn [bind]. destruct (rev_table a) as (t & -> & H). cbn [bind hex_prefix].
    destruct (hexval a) as [x|].
    + replace (15 <? t) with false by lia. cbn [fst snd length]. eexists. rewrite Nat.add_0_r at 1.
      split; [reflexivity|]. rewrite <- E0. exact F0.
    + replace (15 <? t) with true by lia. cbn [fst snd length]. eexists. rewrite Nat.add_0_r at 1.
      split; [reflexivity|]. rewrite <- E0. exact F0.
  - cbn [length]. replace (2 * length d + 1 <? 2 * length d + S (S (length r)))%nat with true by lia.
    rewrite E0. rewrite get_mid by lia. cbn [bind].
    replace ((d ++ w) ++ a :: b :: r) with ((d ++ w ++ [a]) ++ b :: r) by (rewrite <- !app_assoc; reflexivity).
    rewrite get_mid by (rewrite !app_length; cbn [length]; lia). cbn [bind].
    destruct (rev_table a) as (t & -> & H). cbn [bind]. destruct (rev_table b) as (u & -> & H'). cbn [bind hex_prefix].
    destruct (hexval a) as [x|].
    2:{ replace (15 <? t) with true by lia. cbn [fst snd length]. eexists. rewrite Nat.add_0_r at 1.
        split; [reflexivity|]. rewrite <- !app_assoc. exact F0. }
    replace (15 <? t) with false by lia. destruct (hexval b) as [y|].
    2:{ replace (15 <? u) with true by lia. cbn [fst snd length]. eexists. rewrite Nat.add_0_r at 1.
        split; [reflexivity|]. rewrite <- !app_assoc. exact F0. }
    replace (15 <? u) with false by lia. destruct H as [-> Hx]. destruct H' as [-> Hy]. rewrite lor_digits by assumption.
    destruct (hex_prefix r) as [l e] eqn:Er. cbn [fst snd length].
    (* the cell written: the first of [w], or [a] itself *)
    assert (W : exists c w', length w' = S (length d) /\ (d ++ w ++ [a]) ++ b :: r = d ++ c :: w' ++ r).
    { destruct w as [|c w'].
      - exists a, [b]. cbn [length] in *. split; [lia|]. rewrite <- !app_assoc. reflexivity.
      - exists c, (w' ++ [a; b]). cbn [length] in Lw. split; [rewrite app_length; cbn [length]; lia|]. rewrite <- !app_assoc. cbn [app]. rewrite <- ?app_assoc. reflexivity. }
    destruct W as (c & w' & Lw' & ->). rewrite put_mid by reflexivity. cbn [bind].
    destruct (IH r (d ++ [bZ (x * 16 + y)]) w') as (src & E & F).
    + cbn [length] in Hf. lia.
    + rewrite app_length. cbn [length]. lia.
    + rewrite app_length, Er in E, F. cbn [length fst snd] in E, F. rewrite <- app_assoc in E, F. cbn [app] in E, F.
      exists src. replace (2 * length d + 1 + 2)%nat with (2 * (length d + 1) + 1)%nat by lia.
      replace (length d + S (length l))%nat with (length d + 1 + length l)%nat by lia. split; [exact E|exact F].
Qed.
Theorem GoHexDecode_ok s : GoHexDecode s = Ret (hex_prefix s).
Proof.
  unfold GoHexDecode. destruct (hex_dec_loop_ok (S (length s)) s [] [] (le_n _) eq_refl) as (src & E & F).
  cbn [app length Nat.mul Nat.add] in E, F. rewrite E. cbn [bind]. rewrite F. destruct (hex_prefix s); reflexivity.
Qed.
Lemma hex_prefix_decode s : HexDecode s = match hex_prefix s with (b, None) => Some b | (_, Some _) => None end.
Proof.
  assert (G : forall n s, (length s <= n)%nat -> HexDecode s = match hex_prefix s with (b, None) => Some b | (_, Some _) => None end).
  { induction n as [|n IH]; intros [|a [|b r]] L; cbn [length] in L; try reflexivity; try lia.
    cbn [HexDecode hex_prefix]. destruct (hexval a); [|reflexivity]. destruct (hexval b); [|reflexivity].
    rewrite IH by lia. destruct (hex_prefix r) as [l [e|]]; reflexivity. }
  apply (G (length s)). lia.
Qed.
Theorem GoHexDecode_model s : exists b e, GoHexDecode s = Ret (b, e) /\
  HexDecode s = match e with None => Some b | Some _ => None end.
Proof.
  rewrite GoHexDecode_ok, hex_prefix_decode. destruct (hex_prefix s) as [b e]. exists b, e. split; [reflexivity|]. destruct e; reflexivity.
Qed.
Lemma hexval_digit c d : hexval c = Some d <-> hex_digit c d.
Proof.
  unfold hexval, hex_digit, in_rng. split.
  - intros E. repeat match goal with H : context [if ?b then _ else _] |- _ => destruct b eqn:? end; try discriminate E;
      injection E as <-; lia.
  - intros H. repeat match goal with |- context [if ?b then _ else _] => destruct b eqn:? end; try (f_equal; lia); exfalso; lia.
Qed.
Lemma hexval_none c : hexval c = None <-> forall d, ~ hex_digit c d.
Proof.
  split.
  - intros E d H. apply hexval_digit in H. congruence.
  - intros H. destruct (hexval c) as [d|] eqn:E; [|reflexivity]. apply hexval_digit in E. destruct (H d E).
Qed.
Lemma hex_prefix_reads s : hex_reads s (fst (hex_prefix s)) (snd (hex_prefix s)).
Proof.
  assert (A : forall n s, (length s <= n)%nat -> hex_reads s (fst (hex_prefix s)) (snd (hex_prefix s))).
  { clear. induction n as [|n IH]; intros [|a [|b r]] L; cbn [length] in L; try lia; try constructor.
    - cbn [hex_prefix fst snd]. destruct (hexval a) as [x|] eqn:E.
      + apply hexval_digit in E. exact (reads_odd a x E).
      + apply (reads_first a []). apply hexval_none. exact E.
    - cbn [hex_prefix]. destruct (hexval a) as [x|] eqn:E; [|cbn [fst snd]; apply reads_first, hexval_none, E].
      apply hexval_digit in E. destruct (hexval b) as [y|] eqn:F; [|cbn [fst snd]; apply (reads_second a b x r E), hexval_none, F].
      apply hexval_digit in F. specialize (IH r ltac:(lia)). destruct (hex_prefix r) as [l e]. cbn [fst snd] in *.
      rewrite (Z.mul_comm x 16). apply reads_pair; assumption. }
  apply (A (length s)). lia.
Qed.
Lemma hex_digit_unique c d d' : hex_digit c d -> hex_digit c d' -> d = d'.
Proof. intros H H'. apply hexval_digit in H, H'. congruence. Qed.
Lemma hex_reads_unique s b e : hex_reads s b e -> forall b' e', hex_reads s b' e' -> b' = b /\ e' = e.
Proof.
  induction 1 as [|p q a b r bs e Ha Hb Hr IH|p r Hn|p q a r Ha Hn|p a Ha]; intros b' e' H; inversion H; subst;
    try (match goal with H : forall d, ~ hex_digit ?c d, G : hex_digit ?c _ |- _ => destruct (H _ G) end);
    try (split; reflexivity).
  destruct (IH _ _ ltac:(eassumption)) as [-> ->]. split; [|reflexivity]. repeat f_equal; eapply hex_digit_unique; eassumption.
Qed.
Theorem GoHexDecode_iff s b e : GoHexDecode s = Ret (b, e) <-> hex_reads s b e.
Proof.
  rewrite GoHexDecode_ok. pose proof (hex_prefix_reads s) as H. split.
  - intros E. injection E as E. rewrite E in H. exact H.
  - intros H'. destruct (hex_reads_unique _ _ _ H _ _ H') as [-> ->]. destruct (hex_prefix s); reflexivity.
Qed.
