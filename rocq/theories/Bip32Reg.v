(** Bip32Reg.v - model of bip32/reg_ver_bytes.go: registered version bytes and the tables built by init. *)
From Verif Require Import Base GoStr Rx Bip32Path.

(** bip32/reg_ver_bytes.go:33-43 *)
Inductive AddrEncoding := P2PKH | P2WPKH | P2WPKHInP2SH | P2SH | P2WSH | P2WSHInP2SH | P2PKT.

(** bip32/reg_ver_bytes.go:45-60 *)
Record VersionBytes := mkVB {
  Coin : bytes;
  PvtKeyFlag : Z;
  PvKeyPrefix : bytes;
  PubKeyFlag : Z;
  PubKeyPrefix : bytes;
  AddrEncodings : list AddrEncoding;
  VPath : bytes }.

(** bip32/reg_ver_bytes.go:62-66 *)
Definition PvtKeyFlagBytes (h : VersionBytes) : bytes := Z_be 4 (PvtKeyFlag h).
(** bip32/reg_ver_bytes.go:68-72 *)
Definition PubKeyFlagBytes (h : VersionBytes) : bytes := Z_be 4 (PubKeyFlag h).

(** bip32/reg_ver_bytes.go:75 [^m/\d{0,8}'/\d{0,8}'$] *)
Definition hd_rx : rx :=
  let comp := Rcat (Rchr x2f) (Rcat (Rupto 8 (Rcls is_digit)) (Rchr x27)) in
  Rcat (Rchr x6d) (Rcat comp comp).
(** bip32/reg_ver_bytes.go:74-77 *)
Definition VBIsValid (h : VersionBytes) : bool := rx_match hd_rx (PathString (VPath h)).

(** bip32/reg_ver_bytes.go:90-99 and 108-117: component [idx] as a number; indexing the split path
    panics when there are too few components. *)
Definition comp_val (idx : nat) (h : VersionBytes) (e : err) : outcome (Z * option err) :=
  match nth_error (Split x2f (PathString (VPath h))) idx with
  | None => Panic
  | Some s =>
    match Atoi (RemoveB x27 s) with
    | (_, Some er) => Ret (0, Some er)
    | (v, None) => if u32 v >=? FirstHardenedChild then Ret (0, Some e) else Ret (u32 v, None)
    end
  end.
(** bip32/reg_ver_bytes.go:86-100 *)
Definition PurposeVal (h : VersionBytes) : outcome (Z * option err) :=
  if negb (VBIsValid h) then Ret (0, Some ErrUnSupportedHDVersionBytes) else comp_val 1 h ErrInvalidPurpose.
(** bip32/reg_ver_bytes.go:104-118 *)
Definition CoinVal (h : VersionBytes) : outcome (Z * option err) :=
  if negb (VBIsValid h) then Ret (0, Some ErrUnSupportedHDVersionBytes) else comp_val 2 h ErrInvalidCoin.
(** bip32/reg_ver_bytes.go:120-139: the common body of PurposeValFull and CoinValFull. *)
Definition val_full (h : VersionBytes) (v : outcome (Z * option err)) : outcome (Z * option err) :=
  if negb (VBIsValid h) then Ret (0, Some ErrUnSupportedHDVersionBytes)
  else match v with
       | Panic => Panic
       | Ret (_, Some e) => Ret (0, Some e)
       | Ret (v, None) => Ret (u32 (v + FirstHardenedChild), None)
       end.
(** bip32/reg_ver_bytes.go:120-129 *)
Definition PurposeValFull (h : VersionBytes) := val_full h (PurposeVal h).
(** bip32/reg_ver_bytes.go:130-139 *)
Definition CoinValFull (h : VersionBytes) := val_full h (CoinVal h).

(** bip32/reg_ver_bytes.go:142-150 *)
Definition Bitcoinxprvxpub := mkVB (B "Bitcoin") 0x0488ade4 (B "xprv") 0x0488b21e (B "xpub") [P2PKH; P2SH] (B "m/44'/0'").
(** bip32/reg_ver_bytes.go:151-159 *)
Definition Bitcoinyprvypub := mkVB (B "Bitcoin") 0x049d7878 (B "yprv") 0x049d7cb2 (B "ypub") [P2WPKHInP2SH] (B "m/49'/0'").
(** bip32/reg_ver_bytes.go:160-168 *)
Definition Bitcoinzprvzpub := mkVB (B "Bitcoin") 0x04b2430c (B "zprv") 0x04b24746 (B "zpub") [P2WPKH] (B "m/84'/0'").
(** bip32/reg_ver_bytes.go:169-177 *)
Definition BitcoinYprvYpub := mkVB (B "Bitcoin") 0x0295b005 (B "Yprv") 0x0295b43f (B "Ypub") [P2WSHInP2SH] (B "m/84'/0'").
(** bip32/reg_ver_bytes.go:178-186 *)
Definition BitcoinZprvZpub := mkVB (B "Bitcoin") 0x02aa7a99 (B "Zprv") 0x02aa7ed3 (B "Zpub") [P2WSH] (B "m/84'/0'").
(** bip32/reg_ver_bytes.go:187-195 *)
Definition Bitcointprvtpub := mkVB (B "Bitcoin Testnet") 0x04358394 (B "tprv") 0x043587cf (B "tpub") [P2PKH; P2SH] (B "m/44'/1'").
(** bip32/reg_ver_bytes.go:196-204 *)
Definition Bitcoinuprvupub := mkVB (B "Bitcoin Testnet") 0x044a4e28 (B "uprv") 0x044a5262 (B "upub") [P2WPKHInP2SH] (B "m/49'/1'").
(** bip32/reg_ver_bytes.go:205-213 *)
Definition Bitcoinvprvvpub := mkVB (B "Bitcoin Testnet") 0x045f18bc (B "vprv") 0x045f1cf6 (B "vpub") [P2WPKH] (B "m/84'/1'").
(** bip32/reg_ver_bytes.go:214-222 *)
Definition BitcoinUprvUpub := mkVB (B "Bitcoin Testnet") 0x024285b5 (B "Uprv") 0x024289ef (B "Upub") [P2WSHInP2SH] (B "m/84'/1'").
(** bip32/reg_ver_bytes.go:223-231 *)
Definition BitcoinVprvVpub := mkVB (B "Bitcoin Testnet") 0x02575048 (B "Vprv") 0x02575483 (B "Vpub") [P2WSH] (B "m/84'/1'").
(** bip32/reg_ver_bytes.go:232-240 *)
Definition Groestlcoinxprvxpub := mkVB (B "Groestlcoin") 0x0488ade4 (B "xprv") 0x0488b21e (B "xpub") [P2PKH; P2SH] (B "m/44'/17'").
(** bip32/reg_ver_bytes.go:241-249 *)
Definition Groestlcoinyprvypub := mkVB (B "Groestlcoin") 0x049d7878 (B "yprv") 0x049d7cb2 (B "ypub") [P2WPKHInP2SH] (B "m/49'/17'").
(** bip32/reg_ver_bytes.go:250-258 *)
Definition Groestlcoinzprvzpub := mkVB (B "Groestlcoin") 0x04b2430c (B "zprv") 0x04b24746 (B "zpub") [P2WPKH] (B "m/84'/17'").
(** bip32/reg_ver_bytes.go:259-267 *)
Definition GroestlcoinYprvYpub := mkVB (B "Groestlcoin") 0x0295b005 (B "Yprv") 0x0295b43f (B "Ypub") [P2WSHInP2SH] (B "m/84'/17'").
(** bip32/reg_ver_bytes.go:268-276 *)
Definition GroestlcoinZprvZpub := mkVB (B "Groestlcoin") 0x02aa7a99 (B "Zprv") 0x02aa7ed3 (B "Zpub") [P2WSH] (B "m/84'/17'").
(** bip32/reg_ver_bytes.go:277-285 *)
Definition Groestlcointprvtpub := mkVB (B "Groestlcoin Testnet") 0x04358394 (B "tprv") 0x043587cf (B "tpub") [P2PKH; P2SH] (B "m/44'/1'").
(** bip32/reg_ver_bytes.go:286-294 *)
Definition Groestlcoinuprvupub := mkVB (B "Groestlcoin Testnet") 0x044a4e28 (B "uprv") 0x044a5262 (B "upub") [P2WPKHInP2SH] (B "m/49'/1'").
(** bip32/reg_ver_bytes.go:295-303 *)
Definition Groestlcoinvprvvpub := mkVB (B "Groestlcoin Testnet") 0x045f18bc (B "vprv") 0x045f1cf6 (B "vpub") [P2WPKH] (B "m/84'/1'").
(** bip32/reg_ver_bytes.go:304-312 *)
Definition GroestlcoinUprvUpub := mkVB (B "Groestlcoin Testnet") 0x024285b5 (B "Uprv") 0x024289ef (B "Upub") [P2WSHInP2SH] (B "m/84'/1'").
(** bip32/reg_ver_bytes.go:313-321 *)
Definition GroestlcoinVprvVpub := mkVB (B "Groestlcoin Testnet") 0x02575048 (B "Vprv") 0x02575483 (B "Vpub") [P2WSH] (B "m/84'/1'").
(** bip32/reg_ver_bytes.go:322-330 *)
Definition LitecoinLtpvLtub := mkVB (B "Litecoin") 0x019d9cfe (B "Ltpv") 0x019da462 (B "Ltub") [P2PKH; P2SH] (B "m/44'/2'").
(** bip32/reg_ver_bytes.go:331-339 *)
Definition LitecoinMtpvMtub := mkVB (B "Litecoin") 0x01b26792 (B "Mtpv") 0x01b26ef6 (B "Mtub") [P2WPKHInP2SH] (B "m/49'/2'").
(** bip32/reg_ver_bytes.go:340-348 *)
Definition Litecointtpvttub := mkVB (B "Litecoin Testnet") 0x0436ef7d (B "ttpv") 0x0436f6e1 (B "ttub") [P2PKH; P2SH] (B "m/44'/1'").
(** bip32/reg_ver_bytes.go:349-357 *)
Definition Nexaxprvxpub := mkVB (B "Nexa") 0x426c6b73 (B "xprv") 0x42696720 (B "xpub") [P2PKT; P2PKH; P2SH] (B "m/44'/29223'").
(** bip32/reg_ver_bytes.go:358-366 *)
Definition Nexaxprvxpub2 := mkVB (B "Nexa Testnet") 0x04358394 (B "xprv") 0x043587cf (B "xpub") [P2PKH; P2SH] (B "m/44'/1'").
(** bip32/reg_ver_bytes.go:367-375 *)
Definition Polispprvppub := mkVB (B "Polis") 0x03e25945 (B "pprv") 0x03e25d7e (B "ppub") [P2PKH] (B "m/44'/1997'").
(** bip32/reg_ver_bytes.go:376-384 *)
Definition Syscoinzprvzpub := mkVB (B "Syscoin") 0x04b2430c (B "zprv") 0x04b24746 (B "zpub") [P2WPKH] (B "m/84'/57'").
(** bip32/reg_ver_bytes.go:385-393 *)
Definition SyscoinZprvZpub := mkVB (B "Syscoin") 0x02aa7a99 (B "Zprv") 0x02aa7ed3 (B "Zpub") [P2WSH] (B "m/84'/57'").
(** bip32/reg_ver_bytes.go:394-402 *)
Definition Vertcoinvtcpvtcv := mkVB (B "Vertcoin") 0x0488ade4 (B "vtcv") 0x0488b21e (B "vtcp") [P2PKH; P2SH] (B "m/44'/28'").
(** bip32/reg_ver_bytes.go:405-424: the literal map, in source order (Go iterates it in any order). *)
Definition PathToHDBytesSlice : list (bytes * list VersionBytes) :=
  [ (B "m/44'/0'", [Bitcoinxprvxpub]);
    (B "m/49'/0'", [Bitcoinyprvypub]);
    (B "m/84'/0'", [Bitcoinzprvzpub; BitcoinYprvYpub; BitcoinZprvZpub]);
    (B "m/44'/1'", [Bitcointprvtpub; Groestlcointprvtpub; Litecointtpvttub; Nexaxprvxpub2]);
    (B "m/49'/1'", [Bitcoinuprvupub; Groestlcoinuprvupub]);
    (B "m/84'/1'", [Bitcoinvprvvpub; BitcoinUprvUpub; BitcoinVprvVpub; Groestlcoinvprvvpub; GroestlcoinUprvUpub; GroestlcoinVprvVpub]);
    (B "m/44'/17'", [Groestlcoinxprvxpub]);
    (B "m/49'/17'", [Groestlcoinyprvypub]);
    (B "m/84'/17'", [Groestlcoinzprvzpub; GroestlcoinYprvYpub; GroestlcoinZprvZpub]);
    (B "m/44'/2'", [LitecoinLtpvLtub]);
    (B "m/49'/2'", [LitecoinMtpvMtub]);
    (B "m/44'/29223'", [Nexaxprvxpub]);
    (B "m/44'/28'", [Vertcoinvtcpvtcv]);
    (B "m/44'/1997'", [Polispprvppub]);
    (B "m/84'/57'", [Syscoinzprvzpub; SyscoinZprvZpub]) ].

(** bip32/reg_ver_bytes.go:79-82 *)
Definition IsRegistered (h : VersionBytes) : bool :=
  existsb (fun e => bytes_eqb (fst e) (PathString (VPath h))) PathToHDBytesSlice.

(** ** init (bip32/reg_ver_bytes.go:426-442)
    Go maps are functions to options (None: key absent). *)
Definition gomap := Z -> option (list VersionBytes).
(** the empty maps of bip32/reg_ver_bytes.go:14-31 *)
Definition gempty : gomap := fun _ => None.
(** m[k] = append(m[k], h): an absent key reads as the nil slice. bip32/reg_ver_bytes.go:430-439. *)
Definition gappend (m : gomap) (k : Z) (h : VersionBytes) : gomap :=
  fun x => if x =? k then Some (match m k with Some l => l | None => [] end ++ [h]) else m x.

(** bip32/reg_ver_bytes.go:14-31: the package variables. *)
Record tables := mkTables {
  PubFlagToHDBytesSlice : gomap;
  PvtFlagToHDBytesSlice : gomap;
  HDVersionBytesSlice : list VersionBytes;
  PurposeToHDBytesSlice : gomap;
  PurposeFullToHDBytesSlice : gomap;
  CoinTypeToHDBytesSlice : gomap }.
(** bip32/reg_ver_bytes.go:14-31 *)
Definition tables0 : tables := mkTables gempty gempty [] gempty gempty gempty.

(** [v, _ := f()]: the error is dropped, the value (0 on error) is used. bip32/reg_ver_bytes.go:434-438. *)
Definition drop_err (r : outcome (Z * option err)) : outcome Z :=
  match r with Ret (v, _) => Ret v | Panic => Panic end.

(** bip32/reg_ver_bytes.go:429-440: body of the inner loop. *)
Definition init_one (T : tables) (h : VersionBytes) : outcome tables :=
  match drop_err (PurposeVal h), drop_err (PurposeValFull h), drop_err (CoinVal h) with
  | Ret pv, Ret pf, Ret cv =>
    Ret (mkTables (gappend (PubFlagToHDBytesSlice T) (PubKeyFlag h) h)
                  (gappend (PvtFlagToHDBytesSlice T) (PvtKeyFlag h) h)
                  (HDVersionBytesSlice T)
                  (gappend (PurposeToHDBytesSlice T) pv h)
                  (gappend (PurposeFullToHDBytesSlice T) pf h)
                  (gappend (CoinTypeToHDBytesSlice T) cv h))
  | _, _, _ => Panic
  end.
(** bip32/reg_ver_bytes.go:429-440 *)
Fixpoint init_loop (T : tables) (l : list VersionBytes) : outcome tables :=
  match l with
  | [] => Ret T
  | h :: r => match init_one T h with Ret T' => init_loop T' r | Panic => Panic end
  end.
(** bip32/reg_ver_bytes.go:427-441: the outer loop, over the map entries in the order [ord]. *)
Fixpoint init_outer (T : tables) (ord : list (bytes * list VersionBytes)) : outcome tables :=
  match ord with
  | [] => Ret T
  | (_, arr) :: r =>
    let T1 := mkTables (PubFlagToHDBytesSlice T) (PvtFlagToHDBytesSlice T) (HDVersionBytesSlice T ++ arr)
                       (PurposeToHDBytesSlice T) (PurposeFullToHDBytesSlice T) (CoinTypeToHDBytesSlice T) in
    match init_loop T1 arr with Ret T2 => init_outer T2 r | Panic => Panic end
  end.
(** bip32/reg_ver_bytes.go:426-442: [ord] is the iteration order chosen by the Go runtime. *)
Definition init_tables (ord : list (bytes * list VersionBytes)) : outcome tables := init_outer tables0 ord.

(** The package state after init, for some iteration order. bip32/reg_ver_bytes.go:426-442. *)
Definition after_init (T : tables) : Prop :=
  exists ord, Permutation ord PathToHDBytesSlice /\ init_tables ord = Ret T.
