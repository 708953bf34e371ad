(** ClaimsUiWhole.v - the property statements of PropsUiWhole.v with their proofs. *)
From Verif Require Import Base BaseFacts GoStr GoStrFacts HexFacts Prims Hash HashFacts Bip39 SpecBip39 UtilMnemonic UtilMnemonicFacts WordLists WlEnglish AllLists Secp SpecPath SpecBip32 SpecUtil SpecWallet Bip32Path Bip32Reg Bip32 Bip32PathFacts Bip32Facts Bip32KeyFacts Bip32Facts2 Bip32RegFacts UtilFacts Util Fp ECGroup SpecEC SecpFacts Base58 Base58Facts Bip39Facts GoNat SpecNat GoNatBytes GoRand SpecRand GoWhole GoWholeFacts SpecUi Ui UiFacts UiWhole SpecUiWhole UiWholeFacts Abandon SpecUi Ui UiFacts Claims39 Claims32 ClaimsPath ClaimsUtil ClaimsUi ClaimsWallet ClaimsWhole.
From Verif Require ClaimsCurve ClaimsRand.
From Coq Require Import Lia.
From Coq Require Import ZifyBool ZifyNat ZifyN.

Lemma derive_clean : forall H T vs d k l, derive_loop H T d k vs = Ret l -> Forall (fun kp => PathString (KPath kp) = KPath kp) l.
Proof.
induction vs as [|v vs IH]; intros d k l E; cbn [derive_loop] in E; [injection E as <-; constructor|]. cbv zeta in E. destruct (NewChildKey H T k v) as [[k' e]|]; cbn [bind] in E; [|discriminate E].
destruct (derive_loop H T (append_val d v) k' vs) as [r|] eqn:R; cbn [bind] in E; [|discriminate E]. injection E as <-. constructor; [apply PathString_idem|]. exact (IH _ _ _ R).
Qed.
Lemma result_clean : forall H T root p l, DeriveBIP32Result H T root p = Ret (l, None) -> Forall (fun kp => PathString (KPath kp) = KPath kp) l.
Proof.
intros H T root p l E. unfold DeriveBIP32Result in E. destruct (KeyIsValid H root) as [v|]; cbn [bind] in E; [|discriminate E]. destruct (_ || _ || _); [discriminate E|]. destruct (negb (PathIsValid p)); [discriminate E|].
destruct (ValuesAtDepth p) as [vs [e|]]; [discriminate E|]. destruct (derive_loop H T (B "m") root (tl vs)) as [r|] eqn:R; cbn [bind] in E; [|discriminate E]. injection E as <-. constructor; [reflexivity|]. exact (derive_clean _ _ _ _ _ _ R).
Qed.
(** What is on the screen for a seed and a path. *)
Lemma typed_labels : forall T sd p s hs ss nd l j a, after_init T -> (16 <= length sd)%nat -> master_node RealPrims sd = Some nd -> stripped p s -> path_grammar s hs ss -> Forall (fun a => number a < 2 ^ 31) (hs ++ ss) ->
  path_nodes RealPrims nd (path_values hs ss) = Some l -> nth_error (nd :: l) j = Some a ->
  let root := node_xprv (ser32 0x0488ade4) nd in
  exists k0 kps kp addr L, RootKeyFromSeed RealPrims (HexEncode sd) = Ret (Some root, None) /\ DeriveBIP32Result RealPrims T root (B "m") = Ret ([k0], None) /\ DeriveBIP32Result RealPrims T root p = Ret (kps, None) /\ PathString p <> [] /\
    nth_error kps j = Some kp /\ labels RealPrims T kp L /\ map KKey kps = map (node_xprv (ser32 0x0488ade4)) (nd :: l) /\ KeyString RealPrims root = Encode58 (with_check RealPrims root) /\
    L = [B "m" ++ concat (map (fun v => if v <? 2 ^ 31 then soft_text (Itoa v) else hard_text (Itoa (v - 2 ^ 31))) (firstn j (path_values hs ss)));
         Encode58 (with_check RealPrims (node_xprv (ser32 0x0488ade4) a)); Encode58 (with_check RealPrims (node_xpub (ser32 0x0488b21e) a));
         HexEncode (ser256 (n_key a)); HexEncode (serPb (kG (n_key a))); addr] /\
    (forall x y, kG (n_key a) = PAff x y -> 2 ^ 248 <= fv x -> 2 ^ 248 <= fv y -> addr = HexEncode (eth_address RealPrims (fv x) (fv y))).
Proof.
intros T sd p s hs ss nd l j a HT L1 HN HS HG HB HL NA. pose proof real_prims_ok as HP. cbv zeta.
destruct (wallet_from_seed RealPrims T sd p s hs ss nd l HP HT L1 HN HS HG HB HL) as (W & kps & R & D & S & K & P).
assert (HSm : stripped (B "m") (B "m")) by (apply stripped_iff; reflexivity).
assert (HGm : path_grammar (B "m") [] []) by (exists x6d; split; [left; reflexivity|]; split; [constructor|]; split; [constructor|reflexivity]).
destruct (wallet_from_seed RealPrims T sd (B "m") (B "m") [] [] nd [] HP HT L1 HN HSm HGm (Forall_nil _) eq_refl) as (_ & kps0 & _ & Dm & _ & Km & _).
destruct kps0 as [|k0 [|? ?]]; try discriminate Km.
assert (NK : exists kp, nth_error kps j = Some kp /\ KKey kp = node_xprv (ser32 0x0488ade4) a).
{ assert (X : nth_error (map KKey kps) j = Some (node_xprv (ser32 0x0488ade4) a)) by (rewrite K; apply map_nth_error; exact NA). rewrite nth_error_map in X. destruct (nth_error kps j) as [kp|]; [|discriminate X]. exists kp. split; [reflexivity|]. injection X as X. exact X. }
destruct NK as (kp & NK & KK).
assert (PW : paired (ser32 0x0488ade4) (ser32 0x0488b21e)) by apply C103_shown_sat_l.
pose proof (nth_error_In _ _ NA) as IA.
destruct (C81_shown_l RealPrims T sd nd (path_values hs ss) l a (ser32 0x0488ade4) (ser32 0x0488b21e) HP HT HN HL IA eq_refl eq_refl PW) as (X1 & X2 & X3 & X4 & X5 & _ & X7).
destruct (C82_addresses_l RealPrims T sd nd (path_values hs ss) l a (ser32 0x0488ade4) (ser32 0x0488b21e) HP HT HN HL IA eq_refl eq_refl PW) as (_ & _ & Y & _ & _).
destruct (C81_shown_l RealPrims T sd nd (path_values hs ss) l nd (ser32 0x0488ade4) (ser32 0x0488b21e) HP HT HN HL (or_introl eq_refl) eq_refl eq_refl PW) as (_ & Z2 & _).
pose proof (proj1 (Forall_forall _ _) (nodes_ok_all RealPrims (path_values hs ss) HP nd l (proj1 (master_ok RealPrims sd nd HP HN)) HL) a IA) as OKa.
assert (Wa : wf_key (node_xprv (ser32 0x0488ade4) a)) by (apply xprv_wf, node_fields; [reflexivity|exact OKa]).
destruct (C45_total_l RealPrims T (node_xprv (ser32 0x0488ade4) a) HP HT Wa) as (addr & AE & _).
eexists k0, kps, kp, addr, _. split; [exact R|]. split; [exact Dm|]. split; [exact D|]. split.
{ apply stripped_iff in HS. rewrite <- HS. destruct HG as (mm & _ & _ & _ & ->). discriminate. }
split; [exact NK|]. split; [exists addr; rewrite KK; split; [exact AE|reflexivity]|]. split; [exact K|]. split; [exact Z2|]. split.
- rewrite X1, Y, X5, X2, X3, X4. rewrite (proj1 (Forall_forall _ _) (result_clean _ _ _ _ _ D) kp (nth_error_In _ _ NK)). rewrite (P j kp NK). reflexivity.
- intros x y EK A C. specialize (X7 x y EK A C). rewrite X7 in AE. set (q := HexEncode _) in AE |- *. clearbody q. congruence.
Qed.
Lemma filled_fun : forall d max c m w w', filled d max c m w -> filled d max c m w' -> w = w'.
Proof.
intros d max c m w w' F. revert w'. induction F as [c|c m w w1 Hm E L F IH]; intros w' F'; inversion F' as [c' |c' m' v v1 Hm' E' L' F1]; subst; [reflexivity|lia|lia|].
rewrite E in E'. injection E' as <-. f_equal. apply IH. exact F1.
Qed.
Lemma answered_fun : forall s m w w', answered s m w -> answered s m w' -> w = w'.
Proof. intros s m w w' (mx & E & F) (mx' & E' & F'). rewrite E in E'. injection E' as <-. exact (filled_fun _ _ _ _ _ _ F F'). Qed.
Lemma filled_len : forall d max c m w, (0 < max)%nat -> filled d max c m w -> length w = m.
Proof. intros d max c m w P F. induction F as [c|c m w w' Hm E L F IH]; [reflexivity|]. rewrite app_length, IH. lia. Qed.

(** In proofs; for examples/ui/one/main.go:173-412. *)
Definition some_source : source := {| s_sys := fun _ m => (repeat x07 m, None); s_max := Some 256%nat; s_open := None; s_file := fun _ m => (repeat x05 (Nat.min m 1), None) |}.
Lemma source_fine : source_ok some_source.
Proof. split; [intros c m; cbn; rewrite repeat_length; lia|split; [intros c m; cbn [some_source s_file fst]; rewrite repeat_length; lia|cbn [some_source s_max]; intros max [= <-]; lia]]. Qed.
Lemma english_short : short_words english.
Proof. rewrite english_eq. apply Forall_forall. intros w I. assert (X : forallb (fun w => (length w <=? 100)%nat) english_lines = true) by (vm_compute; reflexivity). pose proof (proj1 (forallb_forall _ _) X w I) as Y. apply Nat.leb_le in Y. assert (100 < 2 ^ 56) by reflexivity. lia. Qed.

Lemma C105_run_l : forall E T wl es r, env_ok E -> after_init T -> good_list wl -> text_words wl -> short_words wl -> Forall g_ok es ->
  gRun E T (SetWordList wl) ui0 es = Some r -> exists es', Forall2 same_event es es' /\ r = run RealPrims T (SetWordList wl) ui0 es'.
Proof.
intros E T wl es r EO HT HG HW SW F G. destruct (run_eq E T wl EO HT HG HW SW es ui0 r (ok0 T wl) F G) as (es' & FS & R & _). exists es'. split; assumption.
Qed.

Lemma C105_run_sat_l : (exists E, env_ok E) /\ (exists T, after_init T) /\ good_list english /\ text_words english /\ short_words english /\
Forall g_ok [GEdit FRadio (B "24"); GFrame (mkGFrame (mkFrame false [] false false []) 0 some_source)] /\
(forall E T, gRun E T (SetWordList english) ui0 [GEdit FRadio (B "24"); GFrame (mkGFrame (mkFrame false [] false false []) 0 some_source)] = Some (Ret (edit FRadio (B "24") ui0))).
Proof.
split; [exact env_exists|]. split; [exact (ex_intro _ T0 T0_ok)|]. split; [apply english_list|]. split; [apply english_list|]. split; [exact english_short|].
split; [apply Forall_cons; [vm_compute; reflexivity|]; apply Forall_cons; [discriminate|apply Forall_nil]|]. intros E T. generalize (SetWordList english). intros w. reflexivity.
Qed.

Lemma C105_ends_l : forall E T wl es, env_ok E -> after_init T -> good_list wl -> text_words wl -> short_words wl -> Forall g_ok es -> Forall g_ends es ->
  exists r, gRun E T (SetWordList wl) ui0 es = Some r /\ (r = Panic -> exists s, bad_seed RealPrims s).
Proof.
intros E T wl es EO HT HG HW SW F N. destruct (run_ends E T wl EO HT HG HW SW es ui0 (ok0 T wl) F N) as (r & G). exists r. split; [exact G|]. intros ->.
destruct (C105_run_l E T wl es Panic EO HT HG HW SW F G) as (es' & _ & R). exact (C54_no_panic_l RealPrims T wl es' real_prims_ok HT HG HW (eq_sym R)).
Qed.

Lemma C105_ends_sat_l : Forall g_ok [GFrame (mkGFrame (mkFrame true [] false false []) 32 some_source)] /\ Forall g_ends [GFrame (mkGFrame (mkFrame true [] false false []) 32 some_source)].
Proof.
split; (constructor; [|constructor]); intros _; [exact source_fine|]. split; [intros c m Hm; left; cbn [some_source s_file fst]; destruct m; [lia|discriminate]|apply le_n].
Qed.

Lemma C105_after_a_frame_l : forall E T wl es i u, env_ok E -> after_init T -> good_list wl -> text_words wl -> short_words wl -> Forall g_ok (es ++ [GFrame i]) ->
  gRun E T (SetWordList wl) ui0 (es ++ [GFrame i]) = Some (Ret u) ->
  (mnemonicField u <> [] -> seedField u = seed_of RealPrims (SetWordList wl) (mnemonicField u) (passField u)) /\
  (seedField u <> [] -> root_of RealPrims (seedField u) (bps u)) /\
  (rootField u = B58Serialize RealPrims (bps u) \/ undecodable RealPrims (rootField u) /\ bps u = repeat x00 78) /\
  (keys_of RealPrims T (bps u) (derivationField u) (tabs u) \/ (bps u = repeat x00 78 /\ undecodable RealPrims (rootField u))) /\
  (forall l, screen u = Some l -> exists kp, 0 <= selected u < Z.of_nat (length (tabs u)) /\ nth_error (tabs u) (Z.to_nat (selected u)) = Some kp /\ labels RealPrims T kp l) /\
  (screen u = None -> selected u = -1 \/ tabs u = []).
Proof.
intros E T wl es i u EO HT HG HW SW F G. pose proof real_prims_ok as HP. destruct (C105_run_l E T wl _ _ EO HT HG HW SW F G) as (es' & FS & R).
apply Forall2_app_inv_l in FS as (es1 & es2 & F1 & F2 & ->). inversion F2 as [|? e ? ? SE F3]; subst. inversion F3; subst. destruct e as [ | | | | | |i']; try (destruct SE; fail).
destruct (C67_wallet_l RealPrims T wl es1 i' u HP HT HG HW (eq_sym R)) as (A1 & A2 & _). destruct (C55_root_text_l RealPrims T wl es1 i' u HP HT HG HW (eq_sym R)) as (A3 & _).
pose proof (C56_fresh_l RealPrims T wl es1 i' u HP HT HG HW (eq_sym R)) as A4. destruct (C54_shown_l RealPrims T wl es1 i' u HP HT HG HW (eq_sym R)) as (A5 & A6). repeat split; assumption.
Qed.

Lemma C105_after_a_frame_sat_l : Forall g_ok ([] ++ [GFrame (mkGFrame (mkFrame false [] false false []) 0 some_source)]) /\ (forall E T, gRun E T (SetWordList english) ui0 ([] ++ [GFrame (mkGFrame (mkFrame false [] false false []) 0 some_source)]) = Some (Ret ui0)).
Proof.
split; [apply Forall_cons; [discriminate|apply Forall_nil]|]. intros E T. generalize (SetWordList english). intros w. reflexivity.
Qed.

Lemma C105_generate_l : forall E T wl es u i n w, env_ok E -> after_init T -> good_list wl -> text_words wl -> short_words wl -> Forall g_ok (es ++ [GFrame i]) ->
  gRun E T (SetWordList wl) ui0 es = Some (Ret u) -> In n [12; 15; 18; 21; 24] -> radio u = Itoa n -> gen_click (g_in i) = true -> answered (g_src i) (Z.to_nat (n / 3 * 4)) w ->
  forall u', gRun E T (SetWordList wl) u [GFrame i] = Some (Ret u') ->
  Fields (mnemonicField u') = bip39_words RealPrims wl w /\ passField u' = passField u /\ seedField u' = HexEncode (p_pbkdf2 RealPrims (mnemonicField u') (B "mnemonic" ++ passField u)).
Proof.
intros E T wl es u i n w EO HT HG HW SW F G Hn RU GC AW u' G'. pose proof real_prims_ok as HP. apply Forall_app in F as [F1 F2]. inversion F2 as [|? ? SO _]; subst. cbn [g_ok] in SO.
destruct (run_eq E T wl EO HT HG HW SW es ui0 (Ret u) (ok0 T wl) F1 G) as (es' & _ & R & OK). specialize (OK _ eq_refl). cbn [gRun gStep] in G'.
destruct (gFrame E T (SetWordList wl) i u) as [q|] eqn:GF; [|discriminate G']. destruct (frame_eq E T wl EO HT HG HW SW i u q OK SO GF) as (rd & Q & _ & A).
assert (EA : n = fst (Atoi (radio u)) mod 256) by (rewrite RU; clear - Hn; simpl in Hn; destruct Hn as [<-|[<-|[<-|[<-|[<-|[]]]]]]; reflexivity).
specialize (A n EA Hn GC (ex_intro _ w AW)). pose proof (answered_fun _ _ _ _ AW A) as <-. destruct q as [v|]; [|discriminate G']. injection G' as ->.
assert (R1 : run RealPrims T (SetWordList wl) u [Frame (with_rand (g_in i) w)] = Ret u') by (cbn [run step]; rewrite <- Q; reflexivity).
destruct (C69_generate_l RealPrims T wl es' u (with_rand (g_in i) w) u' n HP HT HG HW (eq_sym R) Hn RU GC R1) as (e & _ & LE & EE & FE & PE & SE).
assert (LW : length w = Z.to_nat (n / 3 * 4)) by (destruct AW as (mx & EM & FL); apply (filled_len _ _ _ _ _ (proj2 (proj2 (SO GC)) mx EM) FL)).
assert (LL : length e = length w) by (rewrite LW; clear - LE Hn; simpl in Hn; destruct Hn as [<-|[<-|[<-|[<-|[<-|[]]]]]]; cbn in LE |- *; lia).
change (rand (with_rand (g_in i) w)) with w in FE. rewrite LL in FE. specialize (FE (le_n _)). rewrite firstn_all in FE. subst e.
split; [|split; [exact PE|rewrite SE; reflexivity]]. apply (EntropyFromMnemonic_iff RealPrims wl _ w HP HG) in EE. exact (proj2 EE).
Qed.

Lemma C105_generate_sat_l : (forall E T, gRun E T (SetWordList english) ui0 [] = Some (Ret ui0)) /\ In 12 [12; 15; 18; 21; 24] /\ radio ui0 = Itoa 12 /\ source_ok some_source /\ answered some_source (Z.to_nat (12 / 3 * 4)) (repeat x07 16) /\
(forall E T, env_ok E -> after_init T -> (forall s, ~ bad_seed RealPrims s) -> exists u', gRun E T (SetWordList english) ui0 [GFrame (mkGFrame (mkFrame true [] false false []) 32 some_source)] = Some (Ret u')).
Proof.
split; [reflexivity|]. split; [left; reflexivity|]. split; [reflexivity|]. split; [exact source_fine|]. split; [exists 256%nat; split; [reflexivity|]; exact (fl_more _ 256 0 16 (repeat x07 16) [] ltac:(lia) eq_refl eq_refl (fl_done _ 256 1))|].
intros E T EO HT NB. destruct (C105_ends_l E T english [GFrame (mkGFrame (mkFrame true [] false false []) 32 some_source)] EO HT (proj1 english_list) (proj2 english_list) english_short (proj1 C105_ends_sat_l) (proj2 C105_ends_sat_l)) as ([u'|] & G & P); [exists u'; exact G|].
destruct (P eq_refl) as (s & X). destruct (NB s X).
Qed.

Lemma mnemonic_seed : forall H wl m e, prims_ok H -> good_list wl -> entropy_size_ok e -> Fields m = bip39_words H wl e ->
  DeriveSeedFromMnemonic H (SetWordList wl) m [] = (HexEncode (p_pbkdf2 H m (B "mnemonic")), None) /\ (16 <= length (p_pbkdf2 H m (B "mnemonic")))%nat /\ m <> [].
Proof.
intros H wl m e HP HG HE HM. destruct (seed_from_words H wl m e [] HP HG HE HM) as (S & _). rewrite app_nil_r in S. split; [exact S|]. split.
{ pose proof (proj1 (seed_gating H (SetWordList wl) m [] HP)) as L. unfold NewSeed in L. rewrite app_nil_r in L. rewrite L. lia. }
intros ->. apply (f_equal (@length bytes)) in HM. rewrite (bip39_words_length H wl e HP HE) in HM. unfold entropy_size_ok in HE. cbn in HE. destruct HE as [X|[X|[X|[X|[X|[]]]]]]; rewrite <- X in HM; discriminate HM.
Qed.

Lemma C105_typed_mnemonic_l : forall E ord T wl m e p s hs ss nd l i j a, env_ok E -> Permutation ord PathToHDBytesSlice -> gInit ord = Ret T -> good_list wl -> text_words wl -> short_words wl ->
  entropy_size_ok e -> Fields m = bip39_words RealPrims wl e -> short m -> short p -> master_node RealPrims (p_pbkdf2 RealPrims m (B "mnemonic")) = Some nd ->
  stripped p s -> path_grammar s hs ss -> Forall (fun a => number a < 2 ^ 31) (hs ++ ss) -> path_nodes RealPrims nd (path_values hs ss) = Some l ->
  gen_click (g_in i) = false -> left_click (g_in i) = false -> right_click (g_in i) = false -> tab_clicks (g_in i) = [j] -> nth_error (nd :: l) j = Some a ->
  exists u addr, gRun E T (SetWordList wl) ui0 [GEdit FMnemonic m; GEdit FPath p; GFrame i] = Some (Ret u) /\
    mnemonicField u = m /\ seedField u = HexEncode (p_pbkdf2 RealPrims m (B "mnemonic")) /\ rootField u = Encode58 (with_check RealPrims (node_xprv (ser32 0x0488ade4) nd)) /\
    map KKey (tabs u) = map (node_xprv (ser32 0x0488ade4)) (nd :: l) /\ selected u = Z.of_nat j /\
    screen u = Some [B "m" ++ concat (map (fun v => if v <? 2 ^ 31 then soft_text (Itoa v) else hard_text (Itoa (v - 2 ^ 31))) (firstn j (path_values hs ss)));
         Encode58 (with_check RealPrims (node_xprv (ser32 0x0488ade4) a)); Encode58 (with_check RealPrims (node_xpub (ser32 0x0488b21e) a));
         HexEncode (ser256 (n_key a)); HexEncode (serPb (kG (n_key a))); addr] /\
    (forall x y, kG (n_key a) = PAff x y -> 2 ^ 248 <= fv x -> 2 ^ 248 <= fv y -> addr = HexEncode (eth_address RealPrims (fv x) (fv y))).
Proof.
intros E ord T wl m e p s hs ss nd l i j a EO PO GI HG HW SW HE HM SM SP HN HS HGR HB HL GC LC RC TC NA. rewrite gInit_ok in GI. assert (HT : after_init T) by (exists ord; split; assumption). pose proof real_prims_ok as HP.
destruct (mnemonic_seed RealPrims wl m e HP HG HE HM) as (S & L64 & MN).
destruct (typed_labels T _ p s hs ss nd l j a HT L64 HN HS HGR HB HL NA) as (k0 & kps & kp & addr & L & R & Dm & D & PN & NK & LB & K & KS & LE & AD).
assert (F : Forall g_ok [GEdit FMnemonic m; GEdit FPath p; GFrame i]) by (apply Forall_cons; [exact SM|]; apply Forall_cons; [exact SP|]; apply Forall_cons; [cbn [g_ok]; rewrite GC; discriminate|apply Forall_nil]).
assert (N : Forall g_ends [GEdit FMnemonic m; GEdit FPath p; GFrame i]) by (apply Forall_cons; [exact I|]; apply Forall_cons; [exact I|]; apply Forall_cons; [cbn [g_ends]; rewrite GC; discriminate|apply Forall_nil]).
destruct (C105_ends_l E T wl _ EO HT HG HW SW F N) as (r & G & _). destruct (C105_run_l E T wl _ r EO HT HG HW SW F G) as (es' & FS & RR).
pose proof (run_typed_mnemonic RealPrims T wl i p (HexEncode (p_pbkdf2 RealPrims m (B "mnemonic"))) (node_xprv (ser32 0x0488ade4) nd) kps j kp L k0 m es' GC LC RC TC R Dm D PN NK LB MN S FS) as TM.
rewrite RR, TM in G. clear F N FS RR TM.
eexists _, addr. split; [exact G|]. unfold typed_ui. cbn [mnemonicField seedField rootField tabs selected screen]. split; [reflexivity|]. split; [reflexivity|]. split; [exact KS|]. split; [exact K|]. split; [reflexivity|]. split; [f_equal; exact LE|exact AD].
Qed.

Lemma C105_typed_mnemonic_sat_l : exists m e, entropy_size_ok e /\ Fields m = bip39_words RealPrims english e /\ short m /\ short (B "m/0'") /\
  stripped (B "m/0'") (B "m/0'") /\ path_grammar (B "m/0'") [B "0"] [] /\ Forall (fun a => number a < 2 ^ 31) ([B "0"] ++ []).
Proof.
destruct C01_roundtrip_ex_l as (_ & G & W & E & _). exists (Join (B " ") (bip39_words RealPrims english zero16)), zero16. split; [exact E|]. split; [apply Fields_bip39; try assumption; exact real_prims_ok|]. split; [exact (words_short english zero16 G english_short E)|]. split; [reflexivity|].
destruct C103_wallet_sat_l as (_ & _ & _ & _ & _ & _ & _ & _ & _ & S & PG & _). split; [exact S|]. split; [exact PG|]. repeat constructor.
Qed.

Lemma C105_typed_seed_l : forall E ord T wl sd p s hs ss nd l i j a, env_ok E -> Permutation ord PathToHDBytesSlice -> gInit ord = Ret T -> good_list wl -> text_words wl -> short_words wl ->
  (16 <= length sd)%nat -> Z.of_nat (length sd) < 2 ^ 59 -> short p -> master_node RealPrims sd = Some nd ->
  stripped p s -> path_grammar s hs ss -> Forall (fun a => number a < 2 ^ 31) (hs ++ ss) -> path_nodes RealPrims nd (path_values hs ss) = Some l ->
  gen_click (g_in i) = false -> left_click (g_in i) = false -> right_click (g_in i) = false -> tab_clicks (g_in i) = [j] -> nth_error (nd :: l) j = Some a ->
  exists u addr, gRun E T (SetWordList wl) ui0 [GEdit FSeed (HexEncode sd); GEdit FPath p; GFrame i] = Some (Ret u) /\
    mnemonicField u = [] /\ rootField u = Encode58 (with_check RealPrims (node_xprv (ser32 0x0488ade4) nd)) /\
    map KKey (tabs u) = map (node_xprv (ser32 0x0488ade4)) (nd :: l) /\ selected u = Z.of_nat j /\
    screen u = Some [B "m" ++ concat (map (fun v => if v <? 2 ^ 31 then soft_text (Itoa v) else hard_text (Itoa (v - 2 ^ 31))) (firstn j (path_values hs ss)));
         Encode58 (with_check RealPrims (node_xprv (ser32 0x0488ade4) a)); Encode58 (with_check RealPrims (node_xpub (ser32 0x0488b21e) a));
         HexEncode (ser256 (n_key a)); HexEncode (serPb (kG (n_key a))); addr] /\
    (forall x y, kG (n_key a) = PAff x y -> 2 ^ 248 <= fv x -> 2 ^ 248 <= fv y -> addr = HexEncode (eth_address RealPrims (fv x) (fv y))).
Proof.
intros E ord T wl sd p s hs ss nd l i j a EO PO GI HG HW SW L1 L2 SP HN HS HGR HB HL GC LC RC TC NA. rewrite gInit_ok in GI. assert (HT : after_init T) by (exists ord; split; assumption). pose proof real_prims_ok as HP.
destruct (typed_labels T _ p s hs ss nd l j a HT L1 HN HS HGR HB HL NA) as (k0 & kps & kp & addr & L & R & Dm & D & PN & NK & LB & K & KS & LE & AD).
assert (SN : HexEncode sd <> []). { intros C. apply (f_equal (@length byte)) in C. rewrite HexEncode_length in C. cbn in C. lia. }
assert (SS : short (HexEncode sd)). { unfold short. rewrite HexEncode_length. assert (2 ^ 61 = 4 * 2 ^ 59) by reflexivity. assert (140 < 2 ^ 59) by reflexivity. lia. }
assert (F : Forall g_ok [GEdit FSeed (HexEncode sd); GEdit FPath p; GFrame i]) by (apply Forall_cons; [exact SS|]; apply Forall_cons; [exact SP|]; apply Forall_cons; [cbn [g_ok]; rewrite GC; discriminate|apply Forall_nil]).
assert (N : Forall g_ends [GEdit FSeed (HexEncode sd); GEdit FPath p; GFrame i]) by (apply Forall_cons; [exact I|]; apply Forall_cons; [exact I|]; apply Forall_cons; [cbn [g_ends]; rewrite GC; discriminate|apply Forall_nil]).
destruct (C105_ends_l E T wl _ EO HT HG HW SW F N) as (r & G & _). destruct (C105_run_l E T wl _ r EO HT HG HW SW F G) as (es' & FS & RR).
pose proof (run_typed_seed RealPrims T wl i p (HexEncode sd) (node_xprv (ser32 0x0488ade4) nd) kps j kp L k0 es' GC LC RC TC R Dm D PN NK LB SN FS) as TM.
rewrite RR, TM in G. clear F N FS RR TM.
eexists _, addr. split; [exact G|]. unfold typed_ui. cbn [mnemonicField seedField rootField tabs selected screen]. split; [reflexivity|]. split; [exact KS|]. split; [exact K|]. split; [reflexivity|]. split; [f_equal; exact LE|exact AD].
Qed.

Lemma C105_typed_seed_sat_l : exists E ord T nd l a, env_ok E /\ Permutation ord PathToHDBytesSlice /\ gInit ord = Ret T /\ good_list english /\ text_words english /\ short_words english /\
  master_node RealPrims (map bZ [0; 1; 2; 3; 4; 5; 6; 7; 8; 9; 10; 11; 12; 13; 14; 15]) = Some nd /\ path_nodes RealPrims nd (path_values [B "0"] []) = Some l /\ nth_error (nd :: l) 1 = Some a /\
  exists u addr, gRun E T (SetWordList english) ui0 [GEdit FSeed (B "000102030405060708090a0b0c0d0e0f"); GEdit FPath (B "m/0'"); GFrame (mkGFrame (mkFrame false [] false false [1%nat]) 0 some_source)] = Some (Ret u) /\
    screen u = Some [B "m/0'"; Encode58 (with_check RealPrims (node_xprv (ser32 0x0488ade4) a)); Encode58 (with_check RealPrims (node_xpub (ser32 0x0488b21e) a)); HexEncode (ser256 (n_key a)); HexEncode (serPb (kG (n_key a))); addr] /\
    HexEncode (ser256 (n_key a)) = B "edb2e14f9ee77d26dd93b4ecede8d16ed408ce149b6cd80b0715a2d911a0afea".
Proof.
destruct C103_wallet_sat_l as (E & ord & T & nd & l & EO & PO & GI & HN & HS & HG & HL & LL & _ & HK). destruct l as [|a [|? ?]]; try discriminate LL. exists E, ord, T, nd, [a], a.
split; [exact EO|]. split; [exact PO|]. split; [exact GI|]. split; [apply english_list|]. split; [apply english_list|]. split; [exact english_short|]. split; [exact HN|]. split; [exact HL|]. split; [reflexivity|].
set (i := mkGFrame (mkFrame false [] false false [1%nat]) 0 some_source).
destruct (C105_typed_seed_l E ord T english (map bZ [0; 1; 2; 3; 4; 5; 6; 7; 8; 9; 10; 11; 12; 13; 14; 15]) (B "m/0'") (B "m/0'") [B "0"] [] nd [a] i 1%nat a EO PO GI (proj1 english_list) (proj2 english_list) english_short
  ltac:(cbn; lia) ltac:(reflexivity) ltac:(reflexivity) HN HS HG ltac:(repeat constructor) HL eq_refl eq_refl eq_refl eq_refl eq_refl) as (u & addr & G & _ & _ & _ & _ & S & _).
exists u, addr. split; [exact G|]. split; [exact S|]. cbn [map concat] in HK. rewrite app_nil_r in HK. exact HK.
Qed.
