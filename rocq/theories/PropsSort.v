(** PropsSort.v - sort.Slice, init of bip44 and the script of bip44, as written (C104).
    Every theorem is closed by the lemma of the same name in ClaimsSort.v; an Example beside it shows that its
    hypotheses can be met. *)
From Verif Require Import Base.
From Coq Require Import Permutation Sorting.Sorted.
From Verif Require Import Base GoStr Bip32 Bip44 Bip44Coins SpecCoins GoSort GoScript ClaimsSort.

(** C104: sort.Slice, init of bip44 and the script of bip44, as written. *)

Theorem C104_sort : forall (A : Type) (lt : A -> A -> bool) Next (l : list A),
  (forall x y z, lt y x = false -> lt z y = false -> lt z x = false) -> (forall x y, lt x y = true -> lt y x = false) ->
  exists l', SortSlice lt Next l = Ret l' /\ Permutation l l' /\ StronglySorted (fun a b => lt b a = false) l'.
Proof. exact C104_sort_l. Qed.
Print Assumptions C104_sort.

Example C104_sort_sat : (forall x y z, (y <? x) = false -> (z <? y) = false -> (z <? x) = false) /\ (forall x y, (x <? y) = true -> (y <? x) = false) /\
SortSlice Z.ltb xorshift_Next [5; 3; 9; 1; 1; 8; 7; 2; 6; 4; 0; 11; 10; 12; 3; 5] = Ret [0; 1; 1; 2; 3; 3; 4; 5; 5; 6; 7; 8; 9; 10; 11; 12].
Proof. exact C104_sort_sat_l. Qed.

Theorem C104_init : forall Next, exists R, GoInitCoins Next RegCoins0 = Ret R /\ booted R.
Proof. exact C104_init_l. Qed.
Print Assumptions C104_init.

(** Deviation: the sort as written is not stable. Three names find the coin that comes first in the table, four the one that comes last. *)

Theorem C104_first_or_last_refuted : exists R, GoInitCoins xorshift_Next RegCoins0 = Ret R /\
  map (fun n => option_map CType (sget n (RegBip44CoinsNameToValMap R))) shared_names = map Some [630; 191; 226; 334; 671; 994; 10242] /\
  map (fun n => map CType (filter (fun c => bytes_eqb (CName c) n) RegCoins0)) shared_names =
    [[67; 630]; [191; 645]; [226; 904]; [334; 498]; [670; 671]; [969; 994]; [7028; 10242]].
Proof. exact C104_first_or_last_refuted_l. Qed.
Print Assumptions C104_first_or_last_refuted.

Theorem C104_script : forall buf ReadFile, length buf = 68%nat -> gGenerate buf ReadFile =
  Ret (match ReadFile (B "slip-0044.md") with None => Fatal | Some st => Wrote (B "testing.go") (generateFileFromSlip44MD st) end).
Proof. exact C104_script_l. Qed.
Print Assumptions C104_script.

Example C104_script_sat : gGenerate (repeat x00 68) (fun _ => Some (B "| 60 | 2147483708 | ETH | Ether")) =
  Ret (Wrote (B "testing.go") (B "{Type: 60, PathComponent: 0x8000003c, Symbol: ""ETH"", Name: ""Ether""}," ++ [x0a])) /\
gGenerate (repeat x00 68) (fun _ => None) = Ret Fatal.
Proof. exact C104_script_sat_l. Qed.
