(** PropsMore.v - initialisation of the word lists and the Generator type (C75-C78).
    Every theorem is closed by the lemma of the same name in ClaimsMore.v; an Example beside it shows that its
    hypotheses can be met. *)
From Verif Require Import Base BaseFacts GoStr GoStrFacts Prims Hash HashFacts Bip39 SpecBip39 WordLists Bip39Init Bip39InitFacts WlEnglish AllLists Secp SpecPath SpecBip32 SpecUtil Bip32Path Bip32Reg Bip32 Bip32PathFacts Bip32Facts Bip32KeyFacts Bip32Facts2 Bip32RegFacts UtilFacts Util Generator GeneratorFacts Claims32 ClaimsMore.

(** C75. compareByteSlices decides equality and never indexes out of range. *)

Theorem C75_compare : forall a b, (compareByteSlices a b = Ret true <-> a = b) /\ (compareByteSlices a b = Ret false <-> a <> b) /\ compareByteSlices a b <> Panic.
Proof. exact C75_compare_l. Qed.
Print Assumptions C75_compare.

Example C75_compare_ex : compareByteSlices [x01] [x01] = Ret true /\ compareByteSlices [x01] [] = Ret false /\ compareByteSlices [x01; x02] [x01; x03] = Ret false.
Proof. exact C75_compare_ex_l. Qed.

(** C76. Package initialisation: the ten checksums and the default list. *)

Theorem C76_boot : boot bundled english_text = Ret (SetWordList english) /\
  (forall files eng, boot files eng = Panic <-> exists t c, In (t, c) files /\ Sprintf_x (crc32 t) <> c) /\
  (forall files eng, (forall t c, In (t, c) files -> Sprintf_x (crc32 t) = c) -> boot files eng = Ret (SetWordList (wl_words eng))).
Proof. exact C76_boot_l. Qed.
Print Assumptions C76_boot.

Theorem C76_corruption_panics : forall fs1 fs2 p x y s c eng, length x = length y -> (length x <= 4)%nat -> x <> y ->
  wl_init (p ++ x ++ s) c = Ret tt -> boot (fs1 ++ (p ++ y ++ s, c) :: fs2) eng = Panic.
Proof. exact C76_corruption_panics_l. Qed.
Print Assumptions C76_corruption_panics.

Theorem C76_checksum_not_enough_refuted : forall p b x s c b', wl_init (p ++ b :: x ++ s) c = Ret tt -> length x = 4%nat -> b' <> b ->
  exists x', length x' = 4%nat /\ wl_init (p ++ b' :: x' ++ s) c = Ret tt /\ p ++ b' :: x' ++ s <> p ++ b :: x ++ s.
Proof. exact C76_checksum_not_enough_refuted_l. Qed.
Print Assumptions C76_checksum_not_enough_refuted.

Example C76_ex : (exists p s, wl_init (p ++ B "able" ++ s) english_crc = Ret tt) /\ B "able" <> B "ably" /\ Sprintf_x (crc32 (B "123456789")) = B "cbf43926" /\
  (exists p b x s, wl_init (p ++ b :: x ++ s) english_crc = Ret tt /\ length x = 4%nat).
Proof. exact C76_ex_l. Qed.

(** C77. Generator: SetRootKey copies, RootKey hands out the field itself. *)

Theorem C77_set_copies : forall H T s ops1 s1 i ops2 s2, grun s ops1 = Ret s1 -> Forall keeps ops2 -> grun s (ops1 ++ GSet i :: ops2) = Ret s2 ->
  field s2 = vars s1 i /\ forall p, GenDerive H T s2 p = DeriveBIP32Result H T (vars s1 i) p.
Proof. exact C77_set_copies_l. Qed.
Print Assumptions C77_set_copies.

Theorem C77_variables : forall s ops1 s1 i ops2 s2, grun s ops1 = Ret s1 -> Forall (fun o => ~ touches i o) ops2 ->
  (grun s (ops1 ++ ops2) = Ret s2 -> vars s2 i = vars s1 i) /\
  (grun s (ops1 ++ GGet i :: ops2) = Ret s2 -> vars s2 i = field s1) /\
  (forall j b, grun s (ops1 ++ GWrite i j b :: ops2) = Ret s2 -> (j < 78)%nat /\ vars s2 i = firstn j (vars s1 i) ++ b :: skipn (S j) (vars s1 i)).
Proof. exact C77_variables_l. Qed.
Print Assumptions C77_variables.

Theorem C77_unset : forall H T vs ops s p, prims_ok H -> Forall keeps ops -> grun (new_generator vs) ops = Ret s -> GenDerive H T s p = Ret ([], Some ErrInvalidRootKey).
Proof. exact C77_unset_l. Qed.
Print Assumptions C77_unset.

Theorem C77_pointer_refuted : forall H T vs i p, prims_ok H -> after_init T -> root_key (vs i) -> PathIsValid p = true ->
  exists s1 s2, grun (new_generator vs) [GSet i] = Ret s1 /\ grun (new_generator vs) [GSet i; GPoke 4 x01] = Ret s2 /\
    (exists kps, GenDerive H T s1 p = Ret (kps, None)) /\ GenDerive H T s2 p = Ret ([], Some ErrInvalidRootKey) /\
    vars s1 = vs /\ vars s2 = vs.
Proof. exact C77_pointer_refuted_l. Qed.
Print Assumptions C77_pointer_refuted.

Theorem C77_pointer_silent_refuted : forall H T vs i p b, prims_ok H -> after_init T -> root_key (vs i) -> PathIsValid p = true -> nth 77 (vs i) x00 <> b -> b <> x00 ->
  exists s2 kp kps, grun (new_generator vs) [GSet i; GPoke 77 b] = Ret s2 /\ GenDerive H T s2 p = Ret (kp :: kps, None) /\ KKey kp <> vs i.
Proof. exact C77_pointer_silent_refuted_l. Qed.
Print Assumptions C77_pointer_silent_refuted.

Example C77_ex : root_key (xprv xprv_version x00 z4 z4 z32 1) /\ PathIsValid (B "m/44'/1") = true /\ nth 77 (xprv xprv_version x00 z4 z4 z32 1) x00 <> x05 /\
  Forall keeps [GWrite 0 4 x01; GGet 1; GDerive (B "m")] /\ (exists s, grun (new_generator (fun _ => xprv xprv_version x00 z4 z4 z32 1)) [GSet 0; GWrite 0 4 x01; GGet 1; GDerive (B "m")] = Ret s).
Proof. exact C77_ex_l. Qed.

(** C78. Generator.DeriveBIP32Result beside goroutines that call SetRootKey. *)

Theorem C78_undisturbed : forall H T fld ks1 ks2 p,
  Derive_sched H T fld (map SetByOther ks1 ++ repeat Read 7 ++ map SetByOther ks2) p = Some (DeriveBIP32Result H T (last ks1 fld) p).
Proof. exact C78_undisturbed_l. Qed.
Print Assumptions C78_undisturbed.

Theorem C78_values_held : forall H T fld sched p kp kps, Derive_sched H T fld sched p = Some (Ret (kp :: kps, None)) ->
  exists k vs, ValuesAtDepth p = (0 :: vs, None) /\ length kps = length vs /\
    (KKey kp = fld \/ In (SetByOther (KKey kp)) sched) /\ (k = fld \/ In (SetByOther k) sched) /\
    (forall j v, nth_error vs j = Some v -> exists kp' prev e, nth_error kps j = Some kp' /\ nth_error (k :: map KKey kps) j = Some prev /\
       NewChildKey H T prev v = Ret (KKey kp', e)).
Proof. exact C78_values_held_l. Qed.
Print Assumptions C78_values_held.

Theorem C78_mixed_refuted : forall H T a b p vs, prims_ok H -> after_init T -> root_key a -> root_key b -> ValuesAtDepth p = (0 :: vs, None) ->
  exists kps, DeriveBIP32Result H T b p = Ret (mkKP (B "m") b :: kps, None) /\
    Derive_sched H T a (repeat Read 6 ++ [SetByOther b; Read]) p = Some (Ret (mkKP (B "m") a :: kps, None)).
Proof. exact C78_mixed_refuted_l. Qed.
Print Assumptions C78_mixed_refuted.

Theorem C78_unchecked_refuted : forall H T a k p vs, prims_ok H -> after_init T -> root_key a -> length k = 78%nat -> ~ root_key k -> ValuesAtDepth p = (0 :: vs, None) ->
  DeriveBIP32Result H T k p = Ret ([], Some ErrInvalidRootKey) /\
  exists kps, Derive_sched H T a (repeat Read 5 ++ [SetByOther k; Read; Read]) p = Some (Ret (mkKP (B "m") k :: kps, None)).
Proof. exact C78_unchecked_refuted_l. Qed.
Print Assumptions C78_unchecked_refuted.

Theorem C78_spurious_refuted : forall H T a b p, prims_ok H -> root_key a -> root_key b -> ChecksumDblSha256 H a <> ChecksumDblSha256 H b ->
  Derive_sched H T a (repeat Read 2 ++ SetByOther b :: repeat Read 5) p = Some (Ret ([], Some ErrInvalidRootKey)).
Proof. exact C78_spurious_refuted_l. Qed.
Print Assumptions C78_spurious_refuted.

Theorem C78_bytes_whole : forall H T fld sched p, length fld = 78%nat -> (forall k, In (SetByOther k) sched -> length k = 78%nat) ->
  Derive_bytes H T fld (in_bytes 0 sched) p = Derive_sched H T fld sched p.
Proof. exact C78_bytes_whole_l. Qed.
Print Assumptions C78_bytes_whole.

Theorem C78_events : forall sched n e, In e (in_bytes n sched) -> match e with WByte j _ => j < 78 | RByte m j => j < 78 /\ n <= m end%nat.
Proof. exact C78_events_l. Qed.
Print Assumptions C78_events.

Theorem C78_torn : forall H T fld ks s p kp kps, length fld = 78%nat ->
  (forall j b, In (WByte j b) s -> exists k, In k ks /\ nth_error k j = Some b) ->
  Derive_bytes H T fld s p = Some (Ret (kp :: kps, None)) ->
  exists k vs, ValuesAtDepth p = (0 :: vs, None) /\ length kps = length vs /\ length (KKey kp) = 78%nat /\ length k = 78%nat /\
    (forall j b, nth_error (KKey kp) j = Some b -> exists k', In k' (fld :: ks) /\ nth_error k' j = Some b) /\
    (forall j b, nth_error k j = Some b -> exists k', In k' (fld :: ks) /\ nth_error k' j = Some b) /\
    (forall j v, nth_error vs j = Some v -> exists kp' prev e, nth_error kps j = Some kp' /\ nth_error (k :: map KKey kps) j = Some prev /\
       NewChildKey H T prev v = Ret (KKey kp', e)).
Proof. exact C78_torn_l. Qed.
Print Assumptions C78_torn.

Theorem C78_torn_refuted : forall H T a b p vs, prims_ok H -> after_init T -> root_key a -> root_key b -> (exists x, In x (skipn 45 a) /\ x <> x00) -> ValuesAtDepth p = (0 :: vs, None) ->
  let m := firstn 45 b ++ skipn 45 a in
  let s := firstn 45 (SetBytes b) ++ flat_map ReadBytes (seq 0 7) ++ skipn 45 (SetBytes b) in
  exists kps, Derive_bytes H T a s p = Some (Ret (mkKP (B "m") m :: kps, None)) /\
    DeriveBIP32Result H T m p = Ret (mkKP (B "m") m :: kps, None) /\
    (firstn 45 a <> firstn 45 b -> m <> a) /\ (skipn 45 a <> skipn 45 b -> m <> b).
Proof. exact C78_torn_refuted_l. Qed.
Print Assumptions C78_torn_refuted.

Example C78_ex : let a := xprv xprv_version x00 z4 z4 z32 1 in let b := xprv xprv_version x00 z4 z4 (repeat x01 32) 2 in
  root_key a /\ root_key b /\ a <> b /\ ChecksumDblSha256 RealPrims a <> ChecksumDblSha256 RealPrims b /\
  ~ root_key (repeat x00 78) /\ firstn 45 a <> firstn 45 b /\ skipn 45 a <> skipn 45 b /\ (exists x, In x (skipn 45 a) /\ x <> x00) /\
  ValuesAtDepth (B "m/44'/1") = ([0; 2147483692; 1], None).
Proof. exact C78_ex_l. Qed.
