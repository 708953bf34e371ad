(** UtilFacts.v - derivation results, ranges, addresses. *)
From Verif Require Import Base BaseFacts GoStr GoStrFacts HexFacts Prims Secp Fp ECGroup SpecEC SecpGroup SecpOrder SecpFacts Base58 Base58Facts.
From Verif Require Import SpecPath SpecBip32 Bip32Path Bip32Reg Bip32 Bip32RegFacts Bip32KeyFacts Bip32Facts Bip32Facts2 Bip32PathFacts Util.
From Verif Require Import Claims32 ClaimsPath.
Require Import Permutation.

(** ** Chains of child keys *)
(** In proofs; for util/util.go:55-127. *)
Inductive linked (H : Prims) (T : tables) : bytes -> bytes -> list Z -> list KeyPath -> Prop :=
| linked_nil dp k : linked H T dp k [] []
| linked_cons dp k v k' e r kps : NewChildKey H T k v = Ret (k', e) -> linked H T (append_val dp v) k' r kps ->
    linked H T dp k (v :: r) (mkKP (Formatted (append_val dp v)) k' :: kps).

Lemma derive_loop_ok H T vals : prims_ok H -> after_init T -> forall dp k, wf_key k ->
  exists kps, derive_loop H T dp k vals = Ret kps /\ linked H T dp k vals kps.
Proof.
  intros HP HT. induction vals as [|v r IH]; intros dp k HK.
  - exists []. split; [reflexivity|constructor].
  - destruct (NewChildKey_total H T k v HP HT HK) as ([k' e] & E & W). destruct (IH (append_val dp v) k' W) as (kps & E1 & L).
    eexists. cbn [derive_loop]. rewrite E. cbn [bind]. rewrite E1. cbn [bind]. split; [reflexivity|]. econstructor; eassumption.
Qed.
(** In proofs; for util/util.go:55-127. *)
Fixpoint zseq (i : Z) (n : nat) : list Z := match n with O => [] | S n => i :: zseq (i + 1) n end.
Lemma zseq_length n : forall i, length (zseq i n) = n.
Proof. induction n; intros i; cbn [zseq length]; [reflexivity|rewrite IHn; reflexivity]. Qed.
Lemma zseq_nth n : forall i j, (j < n)%nat -> nth_error (zseq i n) j = Some (i + Z.of_nat j).
Proof.
  induction n as [|n IH]; intros i j Hj; [lia|]. destruct j as [|j]; cbn [zseq nth_error]; [f_equal; lia|]. rewrite IH by lia. f_equal. lia.
Qed.
(** [end - start] iterations always suffice: more fuel does not change the result. *)
Lemma range_fuel H T fuel : forall f2 dp k i en, 0 <= i -> en < 2 ^ 32 -> (Z.to_nat (en - i) <= fuel)%nat -> (Z.to_nat (en - i) <= f2)%nat ->
  range_loop H T fuel dp k i en = range_loop H T f2 dp k i en.
Proof.
  induction fuel as [|f IH]; intros f2 dp k i en Hi He H1 H2.
  - destruct f2 as [|f2]; [reflexivity|]. cbn [range_loop]. assert (i <? en = false) as -> by lia. reflexivity.
  - destruct f2 as [|f2]; cbn [range_loop].
    + assert (i <? en = false) as -> by lia. reflexivity.
    + destruct (Z.ltb_spec i en) as [L|L]; [|reflexivity]. destruct (NewChildKey H T k i) as [[k' e]|]; [|reflexivity]. cbn [bind].
      rewrite u32_small by lia. rewrite (IH f2) by lia. reflexivity.
Qed.
Lemma range_loop_ok H T n : prims_ok H -> after_init T -> forall dp k i en, wf_key k -> 0 <= i -> en < 2 ^ 32 -> Z.of_nat n = en - i ->
  exists kps, range_loop H T n dp k i en = Ret kps /\ linked H T dp k (zseq i n) kps.
Proof.
  intros HP HT. induction n as [|n IH]; intros dp k i en HK Hi He Hn.
  - exists []. split; [reflexivity|constructor].
  - destruct (NewChildKey_total H T k i HP HT HK) as ([k' e] & E & W). cbn [range_loop zseq].
    assert (i <? en = true) as -> by lia. rewrite E. cbn [bind]. rewrite u32_small by lia.
    destruct (IH (append_val dp i) k' (i + 1) en W) as (kps & E1 & L); [lia|lia|lia|]. rewrite E1. cbn [bind].
    eexists. split; [reflexivity|]. econstructor; eassumption.
Qed.
Lemma linked_length H T dp k vs kps : linked H T dp k vs kps -> length kps = length vs.
Proof. induction 1; cbn [length]; congruence. Qed.
(** Entry j comes from entry j-1 (the start key for j = 0). *)
Lemma linked_nth H T dp k vs kps : linked H T dp k vs kps -> forall j v, nth_error vs j = Some v ->
  exists kp prev e, nth_error kps j = Some kp /\ nth_error (k :: map KKey kps) j = Some prev /\ NewChildKey H T prev v = Ret (KKey kp, e).
Proof.
  induction 1 as [dp k|dp k v0 k' e r kps E L IH]; intros j v Hj; [destruct j; discriminate|]. destruct j as [|j].
  - cbn in Hj. assert (v0 = v) by congruence. subst v0. eexists. exists k, e. split; [reflexivity|]. split; [reflexivity|exact E].
  - destruct (IH j v Hj) as (kp & prev & e' & A & B & C). exists kp, prev, e'. split; [exact A|]. split; [exact B|exact C].
Qed.
Lemma linked_app H T dp k vs ws kps : linked H T dp k (vs ++ ws) kps ->
  linked H T dp k vs (firstn (length vs) kps).
Proof.
  revert dp k kps. induction vs as [|v vs IH]; intros dp k kps L; [constructor|]. inversion L; subst. cbn [length firstn]. econstructor; [eassumption|]. apply IH. assumption.
Qed.
Lemma linked_fun H T dp k vs kps kps' : linked H T dp k vs kps -> linked H T dp k vs kps' -> kps = kps'.
Proof.
  intros L. revert kps'. induction L as [dp k|dp k v k' e r kps E L IH]; intros kps' L'; inversion L'; subst; [reflexivity|].
  match goal with H0 : NewChildKey _ _ _ _ = Ret (?a, _) |- _ => assert (a = k') by congruence; subst a end. f_equal. apply IH. assumption.
Qed.

(** ** The texts of derived paths *)
Lemma append_val_text dp v : append_val dp v = dp ++ B "/" ++ val_text v \/ v < 0.
Proof.
  destruct (Z.lt_ge_cases v 0) as [N|N]; [right; exact N|left]. unfold append_val, val_text. destruct (Z.geb_spec v FirstHardenedChild) as [G|G].
  - rewrite <- !app_assoc. reflexivity.
  - rewrite Z.mod_small by lia. reflexivity.
Qed.
(** In proofs; for util/util.go:55-127. *)
Definition dtext (dp : bytes) (vs : list Z) : bytes := dp ++ concat (map (fun v => B "/" ++ val_text v) vs).
Lemma dtext_snoc dp v vs : 0 <= v -> dtext (append_val dp v) vs = dtext dp (v :: vs).
Proof.
  intros Hv. destruct (append_val_text dp v) as [E|]; [|lia]. unfold dtext. rewrite E. cbn [map concat]. rewrite <- !app_assoc. reflexivity.
Qed.
Lemma linked_path H T dp k vs kps : linked H T dp k vs kps -> Forall (fun v => 0 <= v) vs -> forall j kp, nth_error kps j = Some kp ->
  KPath kp = PathString (dtext dp (firstn (S j) vs)).
Proof.
  induction 1 as [dp k|dp k v k' e r kps E L IH]; intros HV j kp Hj; [destruct j; discriminate|]. inversion HV as [|? ? H0 HV']; subst.
  destruct j as [|j].
  - cbn in Hj. assert (mkKP (Formatted (append_val dp v)) k' = kp) as <- by congruence. cbn [KPath firstn].
    rewrite <- dtext_snoc by exact H0. unfold dtext. cbn [map concat]. rewrite app_nil_r. reflexivity.
  - cbn [nth_error] in Hj. rewrite (IH HV' j kp Hj). f_equal. cbn [firstn]. apply dtext_snoc. exact H0.
Qed.
Lemma dtext_Join m vs : dtext [m] vs = Join (B "/") ([m] :: map val_text vs).
Proof. rewrite Join_cons. unfold dtext. f_equal. rewrite map_map. reflexivity. Qed.
Lemma dtext_nows m vs : m = x6d \/ m = x4d -> Forall (fun v => 0 <= v) vs -> PathString (dtext [m] vs) = dtext [m] vs.
Proof.
  intros Hm HV. apply PathString_nows. unfold dtext. apply Forall_app. split; [repeat constructor; destruct Hm as [-> | ->]; reflexivity|].
  induction HV as [|v vs Hv HV IH]; [constructor|]. cbn [map concat]. apply Forall_app. split; [|exact IH]. apply Forall_app. split; [repeat constructor|].
  apply val_text_nows. exact Hv.
Qed.
Lemma dtext_split m vs : m = x6d \/ m = x4d -> Forall (fun v => 0 <= v) vs -> Split x2f (dtext [m] vs) = [m] :: map val_text vs.
Proof.
  intros Hm HV. rewrite dtext_Join. apply Split_Join; [discriminate|]. constructor; [destruct Hm as [-> | ->]; reflexivity|].
  apply Forall_map. eapply Forall_impl; [|exact HV]. intros v Hv. apply val_text_noslash. exact Hv.
Qed.
(** Hardened values first. *)
(** In proofs; for util/util.go:55-127. *)
Definition ordered (vs : list Z) : Prop := exists hs ss, vs = hs ++ ss /\ Forall (fun v => 2 ^ 31 <= v) hs /\ Forall (fun v => v < 2 ^ 31) ss.
Theorem dtext_valid m vs : m = x6d \/ m = x4d -> Forall (fun v => 0 <= v < 2 ^ 32) vs ->
  (PathIsValid (dtext [m] vs) = true <-> ordered vs) /\
  (forall l, ValuesAtDepth (dtext [m] vs) = (l, None) -> l = 0 :: vs).
Proof.
  intros Hm HV. assert (HV0 : Forall (fun v => 0 <= v) vs) by (eapply Forall_impl; [|exact HV]; intros v Hv; cbv beta in Hv; lia).
  split; [split|].
  - intros V. apply PathIsValid_spec in V as (l & V). apply Values_valid in V as (hs & ss & (m' & Hm' & N1 & N2 & E) & _).
    rewrite dtext_nows in E by assumption. pose proof (dtext_split m vs Hm HV0) as S. rewrite E, path_split in S by assumption.
    assert (S' : map q hs ++ ss = map val_text vs) by congruence. clear - S' N2 HV0.
    exists (firstn (length hs) vs), (skipn (length hs) vs). split; [symmetry; apply firstn_skipn|]. rewrite Forall_forall in HV0.
    assert (A : forall v w, In v vs -> val_text v = w -> ContainsB x27 w = (2 ^ 31 <=? v)) by (intros v w Hv <-; apply val_text_quote, HV0; exact Hv).
    assert (F : map val_text (firstn (length hs) vs) = map q hs).
    { rewrite <- firstn_map, <- S'. apply firstn_exact. apply map_length. }
    assert (K : map val_text (skipn (length hs) vs) = ss).
    { rewrite <- skipn_map, <- S'. apply skipn_exact. apply map_length. }
    split; apply Forall_forall; intros v Hv.
    + assert (In (val_text v) (map q hs)) as I by (rewrite <- F; apply in_map; exact Hv). apply in_map_iff in I as (h & Eh & _).
      rewrite <- (firstn_skipn (length hs) vs) in A. pose proof (A v (q h) (in_or_app _ _ _ (or_introl Hv)) (eq_sym Eh)) as Q. rewrite q_quote in Q. lia.
    + assert (In (val_text v) ss) as I by (rewrite <- K; apply in_map; exact Hv). rewrite Forall_forall in N2. apply N2, num_quote in I.
      rewrite <- (firstn_skipn (length hs) vs) in A. pose proof (A v _ (in_or_app _ _ _ (or_intror Hv)) eq_refl) as Q. rewrite I in Q. lia.
  - intros (hs & ss & -> & Hh & Hs). rewrite dtext_Join, map_app. apply Forall_app in HV as [V1 V2].
    replace (map val_text hs) with (map q (map (fun v => Itoa (v mod 2 ^ 31)) hs)).
    2:{ rewrite map_map. apply map_ext_in. intros v Hv. rewrite Forall_forall in Hh. rewrite val_text_hard by (apply Hh; exact Hv). reflexivity. }
    replace (map val_text ss) with (map Itoa ss).
    2:{ apply map_ext_in. intros v Hv. rewrite Forall_forall in Hs. rewrite val_text_soft by (apply Hs; exact Hv). reflexivity. }
    apply build_valid; [exact Hm| | | |]; apply Forall_map.
    + apply Forall_forall. intros v _. apply Itoa_numeral. apply Z.mod_pos_bound. reflexivity.
    + eapply Forall_impl; [|exact V2]. intros v Hv. cbv beta in Hv. apply Itoa_numeral. lia.
    + apply Forall_forall. intros v _. apply Itoa_hard_ok. apply Z.mod_pos_bound. reflexivity.
    + eapply Forall_impl; [|exact V2]. intros v Hv. apply Itoa_soft_ok. exact Hv.
  - intros l E. apply valid_components in E as (m' & _ & _ & ->). rewrite dtext_nows, dtext_split by assumption. cbn [tl]. f_equal.
    rewrite map_map. rewrite <- (map_id vs) at 2. apply map_ext_in. intros v Hv. rewrite Forall_forall in HV. apply val_text_value. apply HV. exact Hv.
Qed.
Lemma values_range p l : ValuesAtDepth p = (l, None) -> exists vs, l = 0 :: vs /\ Forall (fun v => 0 <= v < 2 ^ 32) vs.
Proof.
  intros E. apply Values_valid in E as (hs & ss & _ & O1 & O2 & ->). exists (vals_of hs ss). split; [reflexivity|]. unfold vals_of. apply Forall_app. split; apply Forall_map.
  - rewrite forallb_forall in O1. apply Forall_forall. intros a Ha. specialize (O1 a Ha). unfold hard_ok in O1. pose proof (u32_range (dec_val a)).
    unfold FirstHardenedChild in *. apply andb_true_iff in O1 as [_ O1]. apply Z.ltb_lt in O1. change (2 ^ 32) with 4294967296. lia.
  - apply Forall_forall. intros a _. apply u32_range.
Qed.

(** ** DeriveBIP32Result *)
Theorem Derive_spec H T root p : prims_ok H -> after_init T -> wf_key root ->
  (exists x, In x root /\ x <> x00) -> nth 45 root x00 = x00 -> nth 4 root x00 = x00 -> forall vs, ValuesAtDepth p = (0 :: vs, None) ->
  exists kps, DeriveBIP32Result H T root p = Ret (mkKP (B "m") root :: kps, None) /\ linked H T (B "m") root vs kps.
Proof.
  intros HP HT HK NZ H45 H4 vs EV. destruct (derive_loop_ok H T vs HP HT (B "m") root HK) as (kps & E & L). exists kps. split; [|exact L].
  unfold DeriveBIP32Result. rewrite KeyIsValid_l by assumption. apply exists_nonzero in NZ. rewrite NZ. cbn [bind negb orb].
  assert (IsPrivate root = true) as -> by (unfold IsPrivate, key_at; rewrite H45; reflexivity). unfold key_at. rewrite H4. cbn [Byte.eqb negb orb].
  change (Byte.eqb x00 x00) with true. cbn [negb].
  assert (PathIsValid p = true) as -> by (apply PathIsValid_spec; exists (0 :: vs); exact EV). rewrite EV. cbn [negb tl]. rewrite E. reflexivity.
Qed.
