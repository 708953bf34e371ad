(** PropsFmt.v - fmt, strings, bytes and encoding/binary as written (C102).
    Every theorem is closed by the lemma of the same name in ClaimsFmt.v; an Example beside it shows that its
    hypotheses can be met. *)
From Verif Require Import Base BaseFacts GoStr Secp Bip32Path Bip32 Bip32KeyFacts Bip44 Hash WordLists GoCodec SpecPath SpecCoins SpecFmt GoFmt GoFmtFacts ClaimsFmt.

(** C102: fmt.Sprintf, strings.Join, strings.Repeat, bytes.Compare and encoding/binary as written. *)

Theorem C102_sprintf : forall buf f a t, length buf = 68%nat -> formats f a t -> GoSprintf buf f a = Ret t.
Proof. exact C102_sprintf_l. Qed.
Print Assumptions C102_sprintf.

Example C102_sprintf_sat : formats (B "%s/%d") [AString (B "m/0"); AUint 44] (B "m/0/44") /\ formats (B "%x") [ABytes [x00; xff]] (B "00ff") /\ formats (B "%x") [AUint 0xacc1419] (B "acc1419") /\
GoSprintf (repeat x2a 68) (B "%s/%d") [AString (B "%d"); AUint 18446744073709551615] = Ret (B "%d/18446744073709551615").
Proof. exact C102_sprintf_sat_l. Qed.

Theorem C102_unique : (forall f a t t', formats f a t -> formats f a t' -> t = t') /\
(forall t t' n, decimal t n -> decimal t' n -> t = t') /\ (forall t t' n, hexadecimal t n -> hexadecimal t' n -> t = t').
Proof. exact C102_unique_l. Qed.
Print Assumptions C102_unique.

Example C102_unique_sat : decimal (B "0") 0 /\ decimal (B "2147483647") 2147483647 /\ hexadecimal (B "8000003c") 0x8000003c /\ ~ decimal (B "007") 7.
Proof. exact C102_unique_sat_l. Qed.

Theorem C102_numbers : forall buf u, length buf = 68%nat -> 0 <= u < 2 ^ 64 ->
  (exists t buf', fmtInteger 10 u buf = Ret (t, buf') /\ decimal t u /\ t = Itoa u /\ length buf' = 68%nat) /\
  (exists t buf', fmtInteger 16 u buf = Ret (t, buf') /\ hexadecimal t u /\ t = hex_text u /\ t = Sprintf_x u /\ length buf' = 68%nat).
Proof. exact C102_numbers_l. Qed.
Print Assumptions C102_numbers.

Example C102_numbers_sat : length (repeat x2a 68) = 68%nat /\ fmtInteger 10 18446744073709551615 (repeat x2a 68) = Ret (B "18446744073709551615", repeat x2a 48 ++ B "18446744073709551615").
Proof. exact C102_numbers_sat_l. Qed.

Theorem C102_strings : (forall l sep, GoJoin l sep = Join sep l) /\ (forall s n, GoRepeat s n = Ret (concat (repeat s n))).
Proof. exact C102_strings_l. Qed.
Print Assumptions C102_strings.

Example C102_strings_sat : GoJoin [B "a"; []; B "b"] (B "/") = B "a//b" /\ GoRepeat (B "ab") 5 = Ret (B "ababababab") /\ GoRepeat [] 7 = Ret [].
Proof. exact C102_strings_sat_l. Qed.

Theorem C102_compare : forall a b, (GoCompare a b = -1 <-> lex_lt a b) /\ (GoCompare a b = 0 <-> a = b) /\ (GoCompare a b = 1 <-> lex_lt b a) /\
  (length a = length b -> (GoCompare a b >= 0 <-> be_Z b <= be_Z a)).
Proof. exact C102_compare_l. Qed.
Print Assumptions C102_compare.

Example C102_compare_sat : lex_lt (B "a") (B "ab") /\ lex_lt (B "ab") (B "b") /\ GoCompare (B "b") (B "ab") = 1.
Proof. exact C102_compare_sat_l. Qed.

Theorem C102_binary : (forall b0 b1 b2 b3 r, GoUint32 (b0 :: b1 :: b2 :: b3 :: r) = Ret (be_Z [b0; b1; b2; b3])) /\ (forall b, (length b < 4)%nat -> GoUint32 b = Panic) /\
(forall b0 b1 b2 b3 r v, GoPutUint32 (b0 :: b1 :: b2 :: b3 :: r) v = Ret (Z_be 4 v ++ r)) /\ (forall b v, (length b < 4)%nat -> GoPutUint32 b v = Panic) /\
(forall b0 b1 r, GoUint16 (b0 :: b1 :: r) = Ret (be_Z [b0; b1])) /\ (forall b0 b1 r v, GoPutUint16 (b0 :: b1 :: r) v = Ret (Z_be 2 v ++ r)) /\
(forall v, 0 <= v < 2 ^ 32 -> exists b, GoUint32Bytes v = Ret b /\ length b = 4%nat /\ GoUint32 b = Ret v).
Proof. exact C102_binary_l. Qed.
Print Assumptions C102_binary.

Example C102_binary_sat : GoUint32 [x04; x88; xad; xe4; xff] = Ret 0x0488ade4 /\ GoUint32Bytes 0x0488b21e = Ret [x04; x88; xb2; x1e] /\ GoUint16 [x07] = Panic.
Proof. exact C102_binary_sat_l. Qed.

Theorem C102_calls : forall buf, length buf = 68%nat ->
  (forall p v, 0 <= v < 2 ^ 64 -> GoAppendVal buf p v = Ret (p ++ B "/" ++ Itoa v)) /\
  (forall v, 0 <= v < 2 ^ 64 -> GoValText buf v = Ret (val_text v)) /\
  (forall key, GoValidatePrivateKey buf (Z_bytes secp_n) key = Ret (ValidatePrivateKey key)) /\
  (forall v, GoWordError buf v = Ret (B "word `" ++ v ++ B "` not found in reverse map")) /\
  (forall c, coin_range c -> GoStringForMD buf c = Ret (StringForMD c) /\ GoCoinString buf c = Ret (CoinString c)) /\
  (forall text crc, GoWlInit buf text crc = wl_init text crc).
Proof. exact C102_calls_l. Qed.
Print Assumptions C102_calls.

Example C102_calls_sat : coin_range (mkCoin 60 0x8000003c (B "ETH") (B "Ether")) /\ GoCoinString (repeat x39 68) (mkCoin 60 0x8000003c (B "ETH") (B "Ether")) = Ret (B "ETH - Ether (Type 60)") /\
GoValText (repeat x39 68) 0x8000002c = Ret (B "44'") /\ GoWlInit (repeat x39 68) (B "123456789") (B "cbf43926") = Ret tt.
Proof. exact C102_calls_sat_l. Qed.
