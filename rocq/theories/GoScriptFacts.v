(** GoScriptFacts.v - the script as written does what the model says, and init of bip44 with the sort as written. *)
From Verif Require Import Base BaseFacts GoStr GoStrLit GoStrLitFacts Bip32 Bip44 Bip44Facts Bip44Coins Bip44MdFacts GoCodec GoFmt GoFmtFacts GoScript GoSort GoSortFacts SpecCoins ClaimsText Claims44 ClaimsPath.
From Coq Require Import Lia Permutation Sorting.Sorted.

Lemma parse32 s : ParseUint10 s = match ParseUint32 s with (v, None) => Some v | _ => None end.
Proof. reflexivity. Qed.
Lemma parse32_range s v : ParseUint32 s = (v, None) -> 0 <= v < 2 ^ 32.
Proof.
  intros E. assert (P : ParseUint10 s = Some v) by (rewrite parse32, E; reflexivity). apply ParseUint10_iff in P.
  destruct P as (N & L & ->). split; [apply number_range, N|exact L].
Qed.
Lemma field_nth fs i : (i < length fs)%nat -> field fs i = Ret (nth i fs []).
Proof. intros H. unfold field. rewrite (nth_error_nth' fs [] H). reflexivity. Qed.
Lemma SplitBar_cons s : exists x r, SplitBar s = x :: r.
Proof.
  destruct s as [|x r]; [eexists; eexists; reflexivity|]. cbn [SplitBar]. destruct r as [|y r]; [eexists; eexists; reflexivity|].
  destruct (_ && _); [eexists; eexists; reflexivity|]. destruct (SplitBar (y :: r)); eexists; eexists; reflexivity.
Qed.
Lemma gLine_ok l : gLine l = Ret (match md_line ParseUint10 l with Some c => [c] | None => [] end).
Proof.
  unfold gLine, md_line. destruct C84_split_l as (_ & _ & ES). rewrite ES. cbn [bind].
  destruct (SplitBar_cons l) as (x & fs0 & E). rewrite E. cbn [tl].
  replace (map GoTrimSpace fs0) with (map TrimSpace fs0) by (apply map_ext; intros; symmetry; apply C84_trim_l).
  set (fs := map TrimSpace fs0). clearbody fs. clear E. unfold gCanParse.
  destruct (Nat.ltb_spec 2 (length fs)) as [L|L]; cbn [andb bind]; [|reflexivity].
  assert (EL : last fs [] = nth (length fs - 1) fs []).
  { clear -L. induction fs as [|a fs IH]; cbn in L; [lia|]. destruct fs as [|b fs]; [reflexivity|].
    destruct fs as [|c fs]; [reflexivity|]. cbn [last length Nat.sub nth] in *. destruct fs as [|e fs]; [reflexivity|].
    rewrite IH by (cbn; lia). cbn [length Nat.sub nth]. reflexivity. }
  rewrite (field_nth fs (length fs - 1)) by lia. cbn [bind].
  destruct C84_replace_l as (_ & EC & _ & _). rewrite EL, !EC.
  destruct (negb (Contains _ (B "reserved")) && _); [|reflexivity].
  rewrite (field_nth fs 0) by lia. cbn [bind]. rewrite (parse32 (nth 0 fs [])). destruct (ParseUint32 (nth 0 fs [])) as (t & [e|]); [reflexivity|].
  rewrite (field_nth fs 1) by lia. cbn [bind]. rewrite (parse32 (nth 1 fs [])). destruct (ParseUint32 (nth 1 fs [])) as (pc & [e|]); [reflexivity|].
  unfold gNames. rewrite (field_nth fs 2) by lia. cbn [bind].
  destruct (Nat.eqb_spec (length fs) 3) as [E3|E3].
  - cbn [bind Symbol CName]. destruct (nth 2 fs []); reflexivity.
  - destruct (Nat.ltb_spec (length fs) 3); [lia|]. cbn [bind Symbol CName].
    rewrite GoJoin_ok. destruct (nth 2 fs []), (Join (B " ") (skipn 3 fs)); reflexivity.
Qed.
Lemma gLines_ok ls : forall acc, gLines ls acc = Ret (acc ++ flat_map (fun l => match md_line ParseUint10 l with Some c => [c] | None => [] end) ls).
Proof.
  induction ls as [|l ls IH]; intros acc; cbn [gLines flat_map]; [rewrite app_nil_r; reflexivity|].
  rewrite gLine_ok. cbn [bind]. rewrite IH, app_assoc. reflexivity.
Qed.
Lemma md_line_range l c : md_line ParseUint10 l = Some c -> 0 <= CType c < 2 ^ 32 /\ 0 <= PathComponent c < 2 ^ 32.
Proof.
  unfold md_line. destruct (_ && _ && _); [|discriminate]. rewrite !parse32.
  destruct (ParseUint32 (nth 0 _ [])) as (t & [e|]) eqn:E0; [discriminate|]. destruct (ParseUint32 (nth 1 _ [])) as (pc & [e|]) eqn:E1; [discriminate|].
  apply parse32_range in E0, E1. intros H.
  assert (X : CType c = t /\ PathComponent c = pc).
  { destruct (Nat.eqb _ 3); cbn [Symbol CName] in H;
    repeat match type of H with match ?x with _ => _ end = _ => destruct x end; inversion H; subst; auto. }
  destruct X as (-> & ->). auto.
Qed.
Lemma gContents_ok buf cs : length buf = 68%nat -> Forall (fun c => 0 <= CType c < 2 ^ 32 /\ 0 <= PathComponent c < 2 ^ 32) cs ->
  forall acc, gContents buf cs acc = Ret (acc ++ concat (map (fun c => StringForMD c ++ B "," ++ [x0a]) cs)).
Proof.
  intros L. induction 1 as [|c cs (H1 & H2) HF IH]; intros acc; cbn [gContents map concat]; [rewrite app_nil_r; reflexivity|].
  rewrite (GoStringForMD_ok buf L c) by lia. cbn [bind]. rewrite IH, <- app_assoc. reflexivity.
Qed.
Lemma gGenerate_ok buf RF : length buf = 68%nat -> gGenerate buf RF =
  Ret (match RF (B "slip-0044.md") with None => Fatal | Some st => Wrote (B "testing.go") (generateFileFromSlip44MD st) end).
Proof.
  intros L. unfold gGenerate. destruct (RF _) as [st|]; [|reflexivity]. destruct C84_split_l as (_ & ES & _). rewrite ES. cbn [bind].
  rewrite gLines_ok. cbn [bind app]. fold (registered_coins ParseUint10 st). rewrite gContents_ok; [reflexivity|exact L|].
  apply Forall_forall. intros c Hc. unfold registered_coins in Hc. apply in_flat_map in Hc. destruct Hc as (l & _ & Hc).
  destruct (md_line ParseUint10 l) as [c'|] eqn:E; [|destruct Hc]. destruct Hc as [->|[]]. apply (md_line_range l), E.
Qed.

(** ** init of bip44 *)
Lemma byName_asym x y : byName x y = true -> byName y x = false.
Proof.
  unfold byName. intros H. destruct (bytes_ltb (CName y) (CName x)) eqn:E; [|reflexivity].
  pose proof (bytes_ltb_trans _ _ _ H E) as X. rewrite bytes_ltb_irrefl in X. discriminate.
Qed.
Lemma byName_weak x y z : byName y x = false -> byName z y = false -> byName z x = false.
Proof.
  unfold byName. intros H1 H2. destruct (bytes_ltb (CName z) (CName x)) eqn:E; [|reflexivity].
  destruct (bytes_ltb (CName x) (CName y)) eqn:E1.
  - rewrite (bytes_ltb_trans _ _ _ E E1) in H2. discriminate.
  - pose proof (bytes_ltb_total _ _ E1 H1) as X. rewrite <- X in H2. congruence.
Qed.
Lemma SortCoins_ok Next l : exists l', SortSlice byName Next l = Ret l' /\ sort_result l l'.
Proof.
  destruct (SortSlice_ok byName Next l byName_weak byName_asym) as (l' & E & P & S). exists l'. split; [exact E|].
  split; [symmetry; exact P|exact S].
Qed.
Lemma GoInitCoins_ok Next : exists R, GoInitCoins Next RegCoins0 = Ret R /\ booted R.
Proof.
  destruct (SortCoins_ok Next RegCoins0) as (l & E & S). exists (init_coins l). unfold GoInitCoins. rewrite E. split; [reflexivity|].
  exists l. auto.
Qed.
Lemma names_now : match GoInitCoins xorshift_Next RegCoins0 with Ret R => map (fun n => option_map CType (sget n (RegBip44CoinsNameToValMap R))) shared_names | Panic => [] end =
  map Some [630; 191; 226; 334; 671; 994; 10242].
Proof. vm_compute. reflexivity. Qed.
