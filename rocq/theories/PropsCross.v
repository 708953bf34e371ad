(** PropsCross.v - the registries of bip32 and bip44 (C65).
    Every theorem is closed by the lemma of the same name in ClaimsCross.v; an Example beside it shows that its
    hypotheses can be met. *)
From Verif Require Import Base BaseFacts GoStr GoStrFacts Bip32Path Bip32Reg Bip44 Bip44Coins SpecCoins Bip44Facts Claims44 ClaimsCross.

(** (** ** C65: the version-byte registry of bip32 and the coin registry of bip44 agree. *) *)

Theorem C65_registries_agree : forall R, booted R -> forall path arr h, In (path, arr) PathToHDBytesSlice -> In h arr ->
  exists t p c, CoinVal h = Ret (t, None) /\ CoinValFull h = Ret (p, None) /\
    zget t (RegBip44CoinsTypeToValMap R) = Some c /\ zget p (RegBip44CoinsPathCompToValMap R) = Some c /\
    (CName c = Bip32Reg.Coin h \/ t = 1 /\ CName c = B "Testnet (all coins)" /\ exists n, Bip32Reg.Coin h = n ++ B " Testnet").
Proof. exact C65_registries_agree_l. Qed.
Print Assumptions C65_registries_agree.

Example C65_ex : exists R path arr h, booted R /\ In (path, arr) PathToHDBytesSlice /\ In h arr /\ Bip32Reg.Coin h = B "Nexa".
Proof. exact C65_ex_l. Qed.
