(** ClaimsSort.v - the property statements of PropsSort.v with their proofs. *)
From Verif Require Import Base GoStr Bip32 Bip44 Bip44Coins SpecCoins GoSort GoScript GoSortFacts GoScriptFacts.
From Coq Require Import Lia Permutation Sorting.Sorted.
From Coq Require Import ZifyBool ZifyNat ZifyN.

Lemma C104_sort_l : forall (A : Type) (lt : A -> A -> bool) Next (l : list A),
  (forall x y z, lt y x = false -> lt z y = false -> lt z x = false) -> (forall x y, lt x y = true -> lt y x = false) ->
  exists l', SortSlice lt Next l = Ret l' /\ Permutation l l' /\ StronglySorted (fun a b => lt b a = false) l'.
Proof.
intros A lt Next l. apply SortSlice_ok.
Qed.

Lemma C104_sort_sat_l : (forall x y z, (y <? x) = false -> (z <? y) = false -> (z <? x) = false) /\ (forall x y, (x <? y) = true -> (y <? x) = false) /\
SortSlice Z.ltb xorshift_Next [5; 3; 9; 1; 1; 8; 7; 2; 6; 4; 0; 11; 10; 12; 3; 5] = Ret [0; 1; 1; 2; 3; 3; 4; 5; 5; 6; 7; 8; 9; 10; 11; 12].
Proof.
split; [intros x y z; lia|]. split; [intros x y; lia|]. vm_compute. reflexivity.
Qed.

Lemma C104_init_l : forall Next, exists R, GoInitCoins Next RegCoins0 = Ret R /\ booted R.
Proof.
exact GoInitCoins_ok.
Qed.

Lemma C104_first_or_last_refuted_l : exists R, GoInitCoins xorshift_Next RegCoins0 = Ret R /\
  map (fun n => option_map CType (sget n (RegBip44CoinsNameToValMap R))) shared_names = map Some [630; 191; 226; 334; 671; 994; 10242] /\
  map (fun n => map CType (filter (fun c => bytes_eqb (CName c) n) RegCoins0)) shared_names =
    [[67; 630]; [191; 645]; [226; 904]; [334; 498]; [670; 671]; [969; 994]; [7028; 10242]].
Proof.
destruct (GoInitCoins_ok xorshift_Next) as (R & E & _). exists R. split; [exact E|]. split; [|vm_compute; reflexivity].
pose proof names_now as N. rewrite E in N. exact N.
Qed.

Lemma C104_script_l : forall buf ReadFile, length buf = 68%nat -> gGenerate buf ReadFile =
  Ret (match ReadFile (B "slip-0044.md") with None => Fatal | Some st => Wrote (B "testing.go") (generateFileFromSlip44MD st) end).
Proof.
exact gGenerate_ok.
Qed.

Lemma C104_script_sat_l : gGenerate (repeat x00 68) (fun _ => Some (B "| 60 | 2147483708 | ETH | Ether")) =
  Ret (Wrote (B "testing.go") (B "{Type: 60, PathComponent: 0x8000003c, Symbol: ""ETH"", Name: ""Ether""}," ++ [x0a])) /\
gGenerate (repeat x00 68) (fun _ => None) = Ret Fatal.
Proof.
split; vm_compute; reflexivity.
Qed.
