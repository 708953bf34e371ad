(** ClaimsFmt.v - the property statements of PropsFmt.v with their proofs. *)
From Verif Require Import Base BaseFacts GoStr Secp Bip32Path Bip32 Bip32KeyFacts Bip44 Hash WordLists GoCodec SpecPath SpecCoins SpecFmt GoFmt GoFmtFacts Bip44MdFacts.
From Coq Require Import Lia.
From Coq Require Import ZifyBool ZifyNat ZifyN.

Lemma C102_sprintf_l : forall buf f a t, length buf = 68%nat -> formats f a t -> GoSprintf buf f a = Ret t.
Proof.
exact Sprintf_ok.
Qed.

Lemma C102_sprintf_sat_l : formats (B "%s/%d") [AString (B "m/0"); AUint 44] (B "m/0/44") /\ formats (B "%x") [ABytes [x00; xff]] (B "00ff") /\ formats (B "%x") [AUint 0xacc1419] (B "acc1419") /\
GoSprintf (repeat x2a 68) (B "%s/%d") [AString (B "%d"); AUint 18446744073709551615] = Ret (B "%d/18446744073709551615").
Proof.
split; [|split; [|split; [|vm_compute; reflexivity]]].
- change (formats (x25 :: x73 :: x2f :: x25 :: x64 :: []) [AString (B "m/0"); AUint 44] (B "m/0" ++ x2f :: Itoa 44 ++ [])).
  apply FmArg; [apply PrS; auto|]. apply FmLit; [discriminate|]. apply FmArg; [apply PrD; [auto|lia|apply Itoa_decimal; lia]|constructor].
- apply (FmArg x78 _ (B "00ff") [] [] []); [apply (PrB [x00; xff])|constructor].
- apply (FmArg x78 _ (B "acc1419") [] [] []); [apply PrX; [lia|apply (hex_text_hexadecimal 0xacc1419); lia]|constructor].
Qed.

Lemma C102_unique_l : (forall f a t t', formats f a t -> formats f a t' -> t = t') /\
(forall t t' n, decimal t n -> decimal t' n -> t = t') /\ (forall t t' n, hexadecimal t n -> hexadecimal t' n -> t = t').
Proof.
split; [|split].
- intros f a t t' F F'. assert (L : length (repeat x00 68) = 68%nat) by reflexivity. pose proof (Sprintf_ok _ _ _ _ L F) as E. pose proof (Sprintf_ok _ _ _ _ L F') as E'. congruence.
- intros t t' n D D'. rewrite (dec_unique _ _ D), (dec_unique _ _ D'). reflexivity.
- intros t t' n D D'. rewrite (hex_unique _ _ D), (hex_unique _ _ D'). reflexivity.
Qed.

Lemma C102_unique_sat_l : decimal (B "0") 0 /\ decimal (B "2147483647") 2147483647 /\ hexadecimal (B "8000003c") 0x8000003c /\ ~ decimal (B "007") 7.
Proof.
split; [apply (Itoa_decimal 0); lia|]. split; [apply (Itoa_decimal 2147483647); lia|]. split; [apply (hex_text_hexadecimal 0x8000003c); lia|].
intros D. apply dec_unique in D. vm_compute in D. discriminate.
Qed.

Lemma C102_numbers_l : forall buf u, length buf = 68%nat -> 0 <= u < 2 ^ 64 ->
  (exists t buf', fmtInteger 10 u buf = Ret (t, buf') /\ decimal t u /\ t = Itoa u /\ length buf' = 68%nat) /\
  (exists t buf', fmtInteger 16 u buf = Ret (t, buf') /\ hexadecimal t u /\ t = hex_text u /\ t = Sprintf_x u /\ length buf' = 68%nat).
Proof.
intros buf u L U. destruct (fmtInteger_ok buf u L U) as [(b1 & E1 & L1) (b2 & E2 & L2)]. split.
- exists (Itoa u), b1. split; [exact E1|]. split; [apply Itoa_decimal; lia|]. auto.
- exists (hex_text u), b2. split; [exact E2|]. split; [apply hex_text_hexadecimal; lia|]. rewrite Sprintf_x_text by exact U. auto.
Qed.

Lemma C102_numbers_sat_l : length (repeat x2a 68) = 68%nat /\ fmtInteger 10 18446744073709551615 (repeat x2a 68) = Ret (B "18446744073709551615", repeat x2a 48 ++ B "18446744073709551615").
Proof.
split; [reflexivity|vm_compute; reflexivity].
Qed.

Lemma C102_strings_l : (forall l sep, GoJoin l sep = Join sep l) /\ (forall s n, GoRepeat s n = Ret (concat (repeat s n))).
Proof.
split; [exact GoJoin_ok|exact GoRepeat_ok].
Qed.

Lemma C102_strings_sat_l : GoJoin [B "a"; []; B "b"] (B "/") = B "a//b" /\ GoRepeat (B "ab") 5 = Ret (B "ababababab") /\ GoRepeat [] 7 = Ret [].
Proof.
vm_compute. auto.
Qed.

Lemma C102_compare_l : forall a b, (GoCompare a b = -1 <-> lex_lt a b) /\ (GoCompare a b = 0 <-> a = b) /\ (GoCompare a b = 1 <-> lex_lt b a) /\
  (length a = length b -> (GoCompare a b >= 0 <-> be_Z b <= be_Z a)).
Proof.
intros a b. split; [apply GoCompare_lt|]. split; [apply GoCompare_eq|]. split.
- rewrite <- GoCompare_lt, GoCompare_sym. lia.
- intros L. pose proof (GoCompare_geb a b) as G. rewrite bytes_geb_spec in G by exact L. lia.
Qed.

Lemma C102_compare_sat_l : lex_lt (B "a") (B "ab") /\ lex_lt (B "ab") (B "b") /\ GoCompare (B "b") (B "ab") = 1.
Proof.
split; [left; exists x62, []; reflexivity|]. split; [right; exists [], x61, x62, [x62], []; repeat split; reflexivity|reflexivity].
Qed.

Lemma C102_binary_l : (forall b0 b1 b2 b3 r, GoUint32 (b0 :: b1 :: b2 :: b3 :: r) = Ret (be_Z [b0; b1; b2; b3])) /\ (forall b, (length b < 4)%nat -> GoUint32 b = Panic) /\
(forall b0 b1 b2 b3 r v, GoPutUint32 (b0 :: b1 :: b2 :: b3 :: r) v = Ret (Z_be 4 v ++ r)) /\ (forall b v, (length b < 4)%nat -> GoPutUint32 b v = Panic) /\
(forall b0 b1 r, GoUint16 (b0 :: b1 :: r) = Ret (be_Z [b0; b1])) /\ (forall b0 b1 r v, GoPutUint16 (b0 :: b1 :: r) v = Ret (Z_be 2 v ++ r)) /\
(forall v, 0 <= v < 2 ^ 32 -> exists b, GoUint32Bytes v = Ret b /\ length b = 4%nat /\ GoUint32 b = Ret v).
Proof.
split; [exact GoUint32_ok|]. split; [exact GoUint32_panic|]. split; [exact GoPutUint32_ok|]. split; [exact GoPutUint32_panic|]. split; [exact GoUint16_ok|]. split; [exact GoPutUint16_ok|].
intros v V. exists (Z_be 4 v). split; [unfold GoUint32Bytes; rewrite GoPutUint32_ok, app_nil_r; reflexivity|]. split; [apply Z_be_length|].
pose proof (be_Z_be 4 v) as E. change (p256 4) with (2 ^ 32) in E. rewrite Z.mod_small in E by exact V. pose proof (Z_be_length 4 v) as L.
destruct (Z_be 4 v) as [|a [|b [|c [|d [|e r]]]]]; try discriminate L. rewrite GoUint32_ok, E. reflexivity.
Qed.

Lemma C102_binary_sat_l : GoUint32 [x04; x88; xad; xe4; xff] = Ret 0x0488ade4 /\ GoUint32Bytes 0x0488b21e = Ret [x04; x88; xb2; x1e] /\ GoUint16 [x07] = Panic.
Proof.
vm_compute. auto.
Qed.

Lemma C102_calls_l : forall buf, length buf = 68%nat ->
  (forall p v, 0 <= v < 2 ^ 64 -> GoAppendVal buf p v = Ret (p ++ B "/" ++ Itoa v)) /\
  (forall v, 0 <= v < 2 ^ 64 -> GoValText buf v = Ret (val_text v)) /\
  (forall key, GoValidatePrivateKey buf (Z_bytes secp_n) key = Ret (ValidatePrivateKey key)) /\
  (forall v, GoWordError buf v = Ret (B "word `" ++ v ++ B "` not found in reverse map")) /\
  (forall c, coin_range c -> GoStringForMD buf c = Ret (StringForMD c) /\ GoCoinString buf c = Ret (CoinString c)) /\
  (forall text crc, GoWlInit buf text crc = wl_init text crc).
Proof.
intros buf L. split; [exact (GoAppendVal_ok buf L)|]. split; [exact (GoValText_ok buf L)|]. split; [exact (GoValidate_ok buf L)|]. split; [exact (GoWordError_ok buf L)|].
split; [|intros text crc; exact (GoWlInit_ok buf text crc L)]. intros c [T P]. assert (2 ^ 32 < 2 ^ 64) by reflexivity.
split; [apply (GoStringForMD_ok buf L); lia|apply (GoCoinString_ok buf L); lia].
Qed.

Lemma C102_calls_sat_l : coin_range (mkCoin 60 0x8000003c (B "ETH") (B "Ether")) /\ GoCoinString (repeat x39 68) (mkCoin 60 0x8000003c (B "ETH") (B "Ether")) = Ret (B "ETH - Ether (Type 60)") /\
GoValText (repeat x39 68) 0x8000002c = Ret (B "44'") /\ GoWlInit (repeat x39 68) (B "123456789") (B "cbf43926") = Ret tt.
Proof.
split; [split; cbn; lia|]. split; [vm_compute; reflexivity|]. split; [vm_compute; reflexivity|]. rewrite GoWlInit_ok by reflexivity. vm_compute. reflexivity.
Qed.
