(** ClaimsCross.v - the property statements of PropsCross.v with their proofs. *)
From Verif Require Import Base BaseFacts GoStr GoStrFacts Bip32Path Bip32Reg Bip44 Bip44Coins SpecCoins Bip44Facts Claims44.
From Coq Require Import ZifyBool ZifyNat ZifyN.

(** In proofs; for bip44/coins.go:7-12, bip32/reg_ver_bytes.go:14-31. *)
Definition cross_okb (h : VersionBytes) : bool :=
  match CoinVal h, CoinValFull h with
  | Ret (t, None), Ret (p, None) =>
    match find (fun c => CType c =? t) RegCoins0 with
    | Some c => CoinIsValid c && (PathComponent c =? p) && (bytes_eqb (CName c) (Bip32Reg.Coin h) ||
                (t =? 1) && bytes_eqb (skipn (length (Bip32Reg.Coin h) - 8) (Bip32Reg.Coin h)) (B " Testnet"))
    | None => false
    end
  | _, _ => false
  end.
Lemma cross_check : forallb (fun e => forallb cross_okb (snd e)) PathToHDBytesSlice = true.
Proof. vm_compute. reflexivity. Qed.

Lemma C65_registries_agree_l : forall R, booted R -> forall path arr h, In (path, arr) PathToHDBytesSlice -> In h arr ->
  exists t p c, CoinVal h = Ret (t, None) /\ CoinValFull h = Ret (p, None) /\
    zget t (RegBip44CoinsTypeToValMap R) = Some c /\ zget p (RegBip44CoinsPathCompToValMap R) = Some c /\
    (CName c = Bip32Reg.Coin h \/ t = 1 /\ CName c = B "Testnet (all coins)" /\ exists n, Bip32Reg.Coin h = n ++ B " Testnet").
Proof.
intros R HB path arr h H1 H2. pose proof cross_check as T. rewrite forallb_forall in T. specialize (T _ H1). cbn [snd] in T. rewrite forallb_forall in T. specialize (T _ H2).
unfold cross_okb in T. destruct (CoinVal h) as [[t [e|]]|]; [discriminate| |discriminate]. destruct (CoinValFull h) as [[p [e|]]|]; [discriminate| |discriminate].
destruct (find (fun c => CType c =? t) RegCoins0) as [c|] eqn:F; [|discriminate]. apply find_some in F as [F1 F2].
apply andb_true_iff in T as [T T3]. apply andb_true_iff in T as [T1 T2].
assert (F : fix_coin c = c) by (unfold fix_coin; rewrite T1; reflexivity).
assert (I : In c (RegCoins R)) by (apply (booted_coin R c HB); exists c; auto).
exists t, p, c. split; [reflexivity|]. split; [reflexivity|]. split; [apply (C48_lookup_by_type_l R HB); split; [exact I|lia]|].
split; [apply (C48_lookup_by_path_component_l R HB); split; [exact I|lia]|].
apply orb_true_iff in T3 as [T3|T3]; [left; apply bytes_eqb_true; exact T3|right]. apply andb_true_iff in T3 as [T4 T5]. apply bytes_eqb_true in T5.
split; [lia|]. split.
- assert (J : In (mkCoin 1 0x80000001 (B "") (B "Testnet (all coins)")) RegCoins0) by (right; left; reflexivity).
  assert (K : In (mkCoin 1 0x80000001 (B "") (B "Testnet (all coins)")) (RegCoins R)) by (apply (booted_coin R _ HB); eexists; split; [exact J|reflexivity]).
  assert (A : zget 1 (RegBip44CoinsTypeToValMap R) = Some c) by (apply (C48_lookup_by_type_l R HB); split; [exact I|lia]).
  assert (A' : zget 1 (RegBip44CoinsTypeToValMap R) = Some (mkCoin 1 0x80000001 (B "") (B "Testnet (all coins)"))) by (apply (C48_lookup_by_type_l R HB); split; [exact K|reflexivity]).
  rewrite A in A'. injection A' as ->. reflexivity.
- exists (firstn (length (Bip32Reg.Coin h) - 8) (Bip32Reg.Coin h)). rewrite <- T5. symmetry. apply firstn_skipn.
Qed.

Lemma C65_ex_l : exists R path arr h, booted R /\ In (path, arr) PathToHDBytesSlice /\ In h arr /\ Bip32Reg.Coin h = B "Nexa".
Proof.
destruct booted_exists as [R HB]. exists R.
assert (A : existsb (fun e => existsb (fun h => bytes_eqb (Bip32Reg.Coin h) (B "Nexa")) (snd e)) PathToHDBytesSlice = true) by (vm_compute; reflexivity).
apply existsb_exists in A as ((path & arr) & A1 & A2). apply existsb_exists in A2 as (h & A2 & A3). exists path, arr, h.
split; [exact HB|]. split; [exact A1|]. split; [exact A2|apply bytes_eqb_true; exact A3].
Qed.
