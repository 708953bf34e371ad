(** Slip44.v - the text of bip44/slip-0044.md, line by line. *)
From Verif Require Import Base.

(** bip44/slip-0044.md:1-1312 *)
Definition slip44_lines : list bytes := [
  B "| 0          | 0x80000000                    | BTC     | Bitcoin                           ";
  B "| 1          | 0x80000001                    |         | Testnet (all coins)               ";
  B "| 2          | 0x80000002                    | LTC     | Litecoin                          ";
  B "| 3          | 0x80000003                    | DOGE    | Dogecoin                          ";
  B "| 4          | 0x80000004                    | RDD     | Reddcoin                          ";
  B "| 5          | 0x80000005                    | DASH    | Dash                              ";
  B "| 6          | 0x80000006                    | PPC     | Peercoin                          ";
  B "| 7          | 0x80000007                    | NMC     | Namecoin                          ";
  B "| 8          | 0x80000008                    | FTC     | Feathercoin                       ";
  B "| 9          | 0x80000009                    | XCP     | Counterparty                      ";
  B "| 10         | 0x8000000a                    | BLK     | Blackcoin                         ";
  B "| 11         | 0x8000000b                    | NSR     | NuShares                          ";
  B "| 12         | 0x8000000c                    | NBT     | NuBits                            ";
  B "| 13         | 0x8000000d                    | MZC     | Mazacoin                          ";
  B "| 14         | 0x8000000e                    | VIA     | Viacoin                           ";
  B "| 15         | 0x8000000f                    | XCH     | ClearingHouse                     ";
  B "| 16         | 0x80000010                    | RBY     | Rubycoin                          ";
  B "| 17         | 0x80000011                    | GRS     | Groestlcoin                       ";
  B "| 18         | 0x80000012                    | DGC     | Digitalcoin                       ";
  B "| 19         | 0x80000013                    | CCN     | Cannacoin                         ";
  B "| 20         | 0x80000014                    | DGB     | DigiByte                          ";
  B "| 21         | 0x80000015                    |         | Open Assets                       ";
  B "| 22         | 0x80000016                    | MONA    | Monacoin                          ";
  B "| 23         | 0x80000017                    | CLAM    | Clams                             ";
  B "| 24         | 0x80000018                    | XPM     | Primecoin                         ";
  B "| 25         | 0x80000019                    | NEOS    | Neoscoin                          ";
  B "| 26         | 0x8000001a                    | JBS     | Jumbucks                          ";
  B "| 27         | 0x8000001b                    | ZRC     | ziftrCOIN                         ";
  B "| 28         | 0x8000001c                    | VTC     | Vertcoin                          ";
  B "| 29         | 0x8000001d                    | NXT     | NXT                               ";
  B "| 30         | 0x8000001e                    | BURST   | Burst                             ";
  B "| 31         | 0x8000001f                    | MUE     | MonetaryUnit                      ";
  B "| 32         | 0x80000020                    | ZOOM    | Zoom                              ";
  B "| 33         | 0x80000021                    | VASH    | Virtual Cash                      ";
  B "| 34         | 0x80000022                    | CDN     | Canada eCoin                      ";
  B "| 35         | 0x80000023                    | SDC     | ShadowCash                        ";
  B "| 36         | 0x80000024                    | PKB     | ParkByte                          ";
  B "| 37         | 0x80000025                    | PND     | Pandacoin                         ";
  B "| 38         | 0x80000026                    | START   | StartCOIN                         ";
  B "| 39         | 0x80000027                    | MOIN    | MOIN                              ";
  B "| 40         | 0x80000028                    | EXP     | Expanse                           ";
  B "| 41         | 0x80000029                    | EMC2    | Einsteinium                       ";
  B "| 42         | 0x8000002a                    | DCR     | Decred                            ";
  B "| 43         | 0x8000002b                    | XEM     | NEM                               ";
  B "| 44         | 0x8000002c                    | PART    | Particl                           ";
  B "| 45         | 0x8000002d                    | ARG     | Argentum (dead)                   ";
  B "| 46         | 0x8000002e                    |         | Libertas                          ";
  B "| 47         | 0x8000002f                    |         | Posw coin                         ";
  B "| 48         | 0x80000030                    | SHR     | Shreeji                           ";
  B "| 49         | 0x80000031                    | GCR     | Global Currency Reserve (GCRcoin) ";
  B "| 50         | 0x80000032                    | NVC     | Novacoin                          ";
  B "| 51         | 0x80000033                    | AC      | Asiacoin                          ";
  B "| 52         | 0x80000034                    | BTCD    | BitcoinDark                       ";
  B "| 53         | 0x80000035                    | DOPE    | Dopecoin                          ";
  B "| 54         | 0x80000036                    | TPC     | Templecoin                        ";
  B "| 55         | 0x80000037                    | AIB     | AIB                               ";
  B "| 56         | 0x80000038                    | EDRC    | EDRCoin                           ";
  B "| 57         | 0x80000039                    | SYS     | Syscoin                           ";
  B "| 58         | 0x8000003a                    | SLR     | Solarcoin                         ";
  B "| 59         | 0x8000003b                    | SMLY    | Smileycoin                        ";
  B "| 60         | 0x8000003c                    | ETH     | Ether                             ";
  B "| 61         | 0x8000003d                    | ETC     | Ether Classic                     ";
  B "| 62         | 0x8000003e                    | PSB     | Pesobit                           ";
  B "| 63         | 0x8000003f                    | LDCN    | Landcoin (dead)                   ";
  B "| 64         | 0x80000040                    |         | Open Chain                        ";
  B "| 65         | 0x80000041                    | XBC     | Bitcoinplus                       ";
  B "| 66         | 0x80000042                    | IOP     | Internet of People                ";
  B "| 67         | 0x80000043                    | NXS     | Nexus                             ";
  B "| 68         | 0x80000044                    | INSN    | InsaneCoin                        ";
  B "| 69         | 0x80000045                    | OK      | OKCash                            ";
  B "| 70         | 0x80000046                    | BRIT    | BritCoin                          ";
  B "| 71         | 0x80000047                    | CMP     | Compcoin                          ";
  B "| 72         | 0x80000048                    | CRW     | Crown                             ";
  B "| 73         | 0x80000049                    | BELA    | BelaCoin                          ";
  B "| 74         | 0x8000004a                    | ICX     | ICON                              ";
  B "| 75         | 0x8000004b                    | FJC     | FujiCoin                          ";
  B "| 76         | 0x8000004c                    | MIX     | MIX                               ";
  B "| 77         | 0x8000004d                    | XVG     | Verge Currency                    ";
  B "| 78         | 0x8000004e                    | EFL     | Electronic Gulden                 ";
  B "| 79         | 0x8000004f                    | CLUB    | ClubCoin                          ";
  B "| 80         | 0x80000050                    | RICHX   | RichCoin                          ";
  B "| 81         | 0x80000051                    | POT     | Potcoin                           ";
  B "| 82         | 0x80000052                    | QRK     | Quarkcoin                         ";
  B "| 83         | 0x80000053                    | TRC     | Terracoin                         ";
  B "| 84         | 0x80000054                    | GRC     | Gridcoin                          ";
  B "| 85         | 0x80000055                    | AUR     | Auroracoin                        ";
  B "| 86         | 0x80000056                    | IXC     | IXCoin                            ";
  B "| 87         | 0x80000057                    | NLG     | Gulden                            ";
  B "| 88         | 0x80000058                    | BITB    | BitBean                           ";
  B "| 89         | 0x80000059                    | BTA     | Bata                              ";
  B "| 90         | 0x8000005a                    | XMY     | Myriadcoin                        ";
  B "| 91         | 0x8000005b                    | BSD     | BitSend                           ";
  B "| 92         | 0x8000005c                    | UNO     | Unobtanium                        ";
  B "| 93         | 0x8000005d                    | MTR     | MasterTrader                      ";
  B "| 94         | 0x8000005e                    | GB      | GoldBlocks                        ";
  B "| 95         | 0x8000005f                    | SHM     | Saham                             ";
  B "| 96         | 0x80000060                    | CRX     | Chronos                           ";
  B "| 97         | 0x80000061                    | BIQ     | Ubiquoin                          ";
  B "| 98         | 0x80000062                    | EVO     | Evotion                           ";
  B "| 99         | 0x80000063                    | STO     | SaveTheOcean                      ";
  B "| 100        | 0x80000064                    | BIGUP   | BigUp                             ";
  B "| 101        | 0x80000065                    | GAME    | GameCredits                       ";
  B "| 102        | 0x80000066                    | DLC     | Dollarcoins                       ";
  B "| 103        | 0x80000067                    | ZYD     | Zayedcoin                         ";
  B "| 104        | 0x80000068                    | DBIC    | Dubaicoin                         ";
  B "| 105        | 0x80000069                    | STRAT   | Stratis                           ";
  B "| 106        | 0x8000006a                    | SH      | Shilling                          ";
  B "| 107        | 0x8000006b                    | MARS    | MarsCoin                          ";
  B "| 108        | 0x8000006c                    | UBQ     | Ubiq                              ";
  B "| 109        | 0x8000006d                    | PTC     | Pesetacoin                        ";
  B "| 110        | 0x8000006e                    | NRO     | Neurocoin                         ";
  B "| 111        | 0x8000006f                    | ARK     | ARK                               ";
  B "| 112        | 0x80000070                    | USC     | UltimateSecureCashMain            ";
  B "| 113        | 0x80000071                    | THC     | Hempcoin                          ";
  B "| 114        | 0x80000072                    | LINX    | Linx                              ";
  B "| 115        | 0x80000073                    | ECN     | Ecoin                             ";
  B "| 116        | 0x80000074                    | DNR     | Denarius                          ";
  B "| 117        | 0x80000075                    | PINK    | Pinkcoin                          ";
  B "| 118        | 0x80000076                    | ATOM    | Atom                              ";
  B "| 119        | 0x80000077                    | PIVX    | Pivx                              ";
  B "| 120        | 0x80000078                    | FLASH   | Flashcoin                         ";
  B "| 121        | 0x80000079                    | ZEN     | Zencash                           ";
  B "| 122        | 0x8000007a                    | PUT     | Putincoin                         ";
  B "| 123        | 0x8000007b                    | ZNY     | BitZeny                           ";
  B "| 124        | 0x8000007c                    | UNIFY   | Unify                             ";
  B "| 125        | 0x8000007d                    | XST     | StealthCoin                       ";
  B "| 126        | 0x8000007e                    | BRK     | Breakout Coin                     ";
  B "| 127        | 0x8000007f                    | VC      | Vcash                             ";
  B "| 128        | 0x80000080                    | XMR     | Monero                            ";
  B "| 129        | 0x80000081                    | VOX     | Voxels                            ";
  B "| 130        | 0x80000082                    | NAV     | NavCoin                           ";
  B "| 131        | 0x80000083                    | FCT     | Factom Factoids                   ";
  B "| 132        | 0x80000084                    | EC      | Factom Entry Credits              ";
  B "| 133        | 0x80000085                    | ZEC     | Zcash                             ";
  B "| 134        | 0x80000086                    | LSK     | Lisk                              ";
  B "| 135        | 0x80000087                    | STEEM   | Steem                             ";
  B "| 136        | 0x80000088                    | XZC     | ZCoin                             ";
  B "| 137        | 0x80000089                    | RBTC    | RSK                               ";
  B "| 138        | 0x8000008a                    |         | Giftblock                         ";
  B "| 139        | 0x8000008b                    | RPT     | RealPointCoin                     ";
  B "| 140        | 0x8000008c                    | LBC     | LBRY Credits                      ";
  B "| 141        | 0x8000008d                    | KMD     | Komodo                            ";
  B "| 142        | 0x8000008e                    | BSQ     | bisq Token                        ";
  B "| 143        | 0x8000008f                    | RIC     | Riecoin                           ";
  B "| 144        | 0x80000090                    | XRP     | Ripple                            ";
  B "| 145        | 0x80000091                    | BCH     | Bitcoin Cash                      ";
  B "| 146        | 0x80000092                    | NEBL    | Neblio                            ";
  B "| 147        | 0x80000093                    | ZCL     | ZClassic                          ";
  B "| 148        | 0x80000094                    | XLM     | Stellar Lumens                    ";
  B "| 149        | 0x80000095                    | NLC2    | NoLimitCoin2                      ";
  B "| 150        | 0x80000096                    | WHL     | WhaleCoin                         ";
  B "| 151        | 0x80000097                    | ERC     | EuropeCoin                        ";
  B "| 152        | 0x80000098                    | DMD     | Diamond                           ";
  B "| 153        | 0x80000099                    | BTM     | Bytom                             ";
  B "| 154        | 0x8000009a                    | BIO     | Biocoin                           ";
  B "| 155        | 0x8000009b                    | XWCC    | Whitecoin Classic                 ";
  B "| 156        | 0x8000009c                    | BTG     | Bitcoin Gold                      ";
  B "| 157        | 0x8000009d                    | BTC2X   | Bitcoin 2x                        ";
  B "| 158        | 0x8000009e                    | SSN     | SuperSkynet                       ";
  B "| 159        | 0x8000009f                    | TOA     | TOACoin                           ";
  B "| 160        | 0x800000a0                    | BTX     | Bitcore                           ";
  B "| 161        | 0x800000a1                    | ACC     | Adcoin                            ";
  B "| 162        | 0x800000a2                    | BCO     | Bridgecoin                        ";
  B "| 163        | 0x800000a3                    | ELLA    | Ellaism                           ";
  B "| 164        | 0x800000a4                    | PIRL    | Pirl                              ";
  B "| 165        | 0x800000a5                    | XNO     | Nano                              ";
  B "| 166        | 0x800000a6                    | VIVO    | Vivo                              ";
  B "| 167        | 0x800000a7                    | FRST    | Firstcoin                         ";
  B "| 168        | 0x800000a8                    | HNC     | Helleniccoin                      ";
  B "| 169        | 0x800000a9                    | BUZZ    | BUZZ                              ";
  B "| 170        | 0x800000aa                    | MBRS    | Ember                             ";
  B "| 171        | 0x800000ab                    | HC      | Hcash                             ";
  B "| 172        | 0x800000ac                    | HTML    | HTMLCOIN                          ";
  B "| 173        | 0x800000ad                    | ODN     | Obsidian                          ";
  B "| 174        | 0x800000ae                    | ONX     | OnixCoin                          ";
  B "| 175        | 0x800000af                    | RVN     | Ravencoin                         ";
  B "| 176        | 0x800000b0                    | GBX     | GoByte                            ";
  B "| 177        | 0x800000b1                    | BTCZ    | BitcoinZ                          ";
  B "| 178        | 0x800000b2                    | POA     | Poa                               ";
  B "| 179        | 0x800000b3                    | NYC     | NewYorkCoin                       ";
  B "| 180        | 0x800000b4                    | MXT     | MarteXcoin                        ";
  B "| 181        | 0x800000b5                    | WC      | Wincoin                           ";
  B "| 182        | 0x800000b6                    | MNX     | Minexcoin                         ";
  B "| 183        | 0x800000b7                    | BTCP    | Bitcoin Private                   ";
  B "| 184        | 0x800000b8                    | MUSIC   | Musicoin                          ";
  B "| 185        | 0x800000b9                    | BCA     | Bitcoin Atom                      ";
  B "| 186        | 0x800000ba                    | CRAVE   | Crave                             ";
  B "| 187        | 0x800000bb                    | STAK    | STRAKS                            ";
  B "| 188        | 0x800000bc                    | WBTC    | World Bitcoin                     ";
  B "| 189        | 0x800000bd                    | LCH     | LiteCash                          ";
  B "| 190        | 0x800000be                    | EXCL    | ExclusiveCoin                     ";
  B "| 191        | 0x800000bf                    |         | Lynx                              ";
  B "| 192        | 0x800000c0                    | LCC     | LitecoinCash                      ";
  B "| 193        | 0x800000c1                    | XFE     | Feirm                             ";
  B "| 194        | 0x800000c2                    | EOS     | EOS                               ";
  B "| 195        | 0x800000c3                    | TRX     | Tron                              ";
  B "| 196        | 0x800000c4                    | KOBO    | Kobocoin                          ";
  B "| 197        | 0x800000c5                    | HUSH    | HUSH                              ";
  B "| 198        | 0x800000c6                    | BAN     | Banano                            ";
  B "| 199        | 0x800000c7                    | ETF     | ETF                               ";
  B "| 200        | 0x800000c8                    | OMNI    | Omni                              ";
  B "| 201        | 0x800000c9                    | BIFI    | BitcoinFile                       ";
  B "| 202        | 0x800000ca                    | UFO     | Uniform Fiscal Object             ";
  B "| 203        | 0x800000cb                    | CNMC    | Cryptonodes                       ";
  B "| 204        | 0x800000cc                    | BCN     | Bytecoin                          ";
  B "| 205        | 0x800000cd                    | RIN     | Ringo                             ";
  B "| 206        | 0x800000ce                    | ATP     | Alaya                             ";
  B "| 207        | 0x800000cf                    | EVT     | everiToken                        ";
  B "| 208        | 0x800000d0                    | ATN     | ATN                               ";
  B "| 209        | 0x800000d1                    | BIS     | Bismuth                           ";
  B "| 210        | 0x800000d2                    | NEET    | NEETCOIN                          ";
  B "| 211        | 0x800000d3                    | BOPO    | BopoChain                         ";
  B "| 212        | 0x800000d4                    | OOT     | Utrum                             ";
  B "| 213        | 0x800000d5                    | ALIAS   | Alias                             ";
  B "| 214        | 0x800000d6                    | MONK    | Monkey Project                    ";
  B "| 215        | 0x800000d7                    | BOXY    | BoxyCoin                          ";
  B "| 216        | 0x800000d8                    | FLO     | Flo                               ";
  B "| 217        | 0x800000d9                    | MEC     | Megacoin                          ";
  B "| 218        | 0x800000da                    | BTDX    | BitCloud                          ";
  B "| 219        | 0x800000db                    | XAX     | Artax                             ";
  B "| 220        | 0x800000dc                    | ANON    | ANON                              ";
  B "| 221        | 0x800000dd                    | LTZ     | LitecoinZ                         ";
  B "| 222        | 0x800000de                    | BITG    | Bitcoin Green                     ";
  B "| 223        | 0x800000df                    | ICP     | Internet Computer (DFINITY)       ";
  B "| 224        | 0x800000e0                    | SMART   | Smartcash                         ";
  B "| 225        | 0x800000e1                    | XUEZ    | XUEZ                              ";
  B "| 226        | 0x800000e2                    | HLM     | Helium                            ";
  B "| 227        | 0x800000e3                    | WEB     | Webchain                          ";
  B "| 228        | 0x800000e4                    | ACM     | Actinium                          ";
  B "| 229        | 0x800000e5                    | NOS     | NOS Stable Coins                  ";
  B "| 230        | 0x800000e6                    | BITC    | BitCash                           ";
  B "| 231        | 0x800000e7                    | HTH     | Help The Homeless Coin            ";
  B "| 232        | 0x800000e8                    | TZC     | Trezarcoin                        ";
  B "| 233        | 0x800000e9                    | VAR     | Varda                             ";
  B "| 234        | 0x800000ea                    | IOV     | IOV                               ";
  B "| 235        | 0x800000eb                    | FIO     | FIO                               ";
  B "| 236        | 0x800000ec                    | BSV     | BitcoinSV                         ";
  B "| 237        | 0x800000ed                    | DXN     | DEXON                             ";
  B "| 238        | 0x800000ee                    | QRL     | Quantum Resistant Ledger          ";
  B "| 239        | 0x800000ef                    | PCX     | ChainX                            ";
  B "| 240        | 0x800000f0                    | LOKI    | Loki                              ";
  B "| 241        | 0x800000f1                    |         | Imagewallet                       ";
  B "| 242        | 0x800000f2                    | NIM     | Nimiq                             ";
  B "| 243        | 0x800000f3                    | SOV     | Sovereign Coin                    ";
  B "| 244        | 0x800000f4                    | JCT     | Jibital Coin                      ";
  B "| 245        | 0x800000f5                    | SLP     | Simple Ledger Protocol            ";
  B "| 246        | 0x800000f6                    | EWT     | Energy Web                        ";
  B "| 247        | 0x800000f7                    | UC      | Ulord                             ";
  B "| 248        | 0x800000f8                    | EXOS    | EXOS                              ";
  B "| 249        | 0x800000f9                    | ECA     | Electra                           ";
  B "| 250        | 0x800000fa                    | SOOM    | Soom                              ";
  B "| 251        | 0x800000fb                    | XRD     | Redstone                          ";
  B "| 252        | 0x800000fc                    | FREE    | FreeCoin                          ";
  B "| 253        | 0x800000fd                    | NPW     | NewPowerCoin                      ";
  B "| 254        | 0x800000fe                    | BST     | BlockStamp                        ";
  B "| 255        | 0x800000ff                    |         | SmartHoldem                       ";
  B "| 256        | 0x80000100                    | NANO    | Bitcoin Nano                      ";
  B "| 257        | 0x80000101                    | BTCC    | Bitcoin Core                      ";
  B "| 258        | 0x80000102                    |         | Zen Protocol                      ";
  B "| 259        | 0x80000103                    | ZEST    | Zest                              ";
  B "| 260        | 0x80000104                    | ABT     | ArcBlock                          ";
  B "| 261        | 0x80000105                    | PION    | Pion                              ";
  B "| 262        | 0x80000106                    | DT3     | DreamTeam3                        ";
  B "| 263        | 0x80000107                    | ZBUX    | Zbux                              ";
  B "| 264        | 0x80000108                    | KPL     | Kepler                            ";
  B "| 265        | 0x80000109                    | TPAY    | TokenPay                          ";
  B "| 266        | 0x8000010a                    | ZILLA   | ChainZilla                        ";
  B "| 267        | 0x8000010b                    | ANK     | Anker                             ";
  B "| 268        | 0x8000010c                    | BCC     | BCChain                           ";
  B "| 269        | 0x8000010d                    | HPB     | HPB                               ";
  B "| 270        | 0x8000010e                    | ONE     | ONE                               ";
  B "| 271        | 0x8000010f                    | SBC     | SBC                               ";
  B "| 272        | 0x80000110                    | IPC     | IPChain                           ";
  B "| 273        | 0x80000111                    | DMTC    | Dominantchain                     ";
  B "| 274        | 0x80000112                    | OGC     | Onegram                           ";
  B "| 275        | 0x80000113                    | SHIT    | Shitcoin                          ";
  B "| 276        | 0x80000114                    | ANDES   | Andescoin                         ";
  B "| 277        | 0x80000115                    | AREPA   | Arepacoin                         ";
  B "| 278        | 0x80000116                    | BOLI    | Bolivarcoin                       ";
  B "| 279        | 0x80000117                    | RIL     | Rilcoin                           ";
  B "| 280        | 0x80000118                    | HTR     | Hathor Network                    ";
  B "| 281        | 0x80000119                    | ACME    | Accumulate                        ";
  B "| 282        | 0x8000011a                    | BRAVO   | BRAVO                             ";
  B "| 283        | 0x8000011b                    | ALGO    | Algorand                          ";
  B "| 284        | 0x8000011c                    | BZX     | Bitcoinzero                       ";
  B "| 285        | 0x8000011d                    | GXX     | GravityCoin                       ";
  B "| 286        | 0x8000011e                    | HEAT    | HEAT                              ";
  B "| 287        | 0x8000011f                    | XDN     | DigitalNote                       ";
  B "| 288        | 0x80000120                    | FSN     | FUSION                            ";
  B "| 289        | 0x80000121                    | CPC     | Capricoin                         ";
  B "| 290        | 0x80000122                    | BOLD    | Bold                              ";
  B "| 291        | 0x80000123                    | IOST    | IOST                              ";
  B "| 292        | 0x80000124                    | TKEY    | Tkeycoin                          ";
  B "| 293        | 0x80000125                    | USE     | Usechain                          ";
  B "| 294        | 0x80000126                    | BCZ     | BitcoinCZ                         ";
  B "| 295        | 0x80000127                    | IOC     | Iocoin                            ";
  B "| 296        | 0x80000128                    | ASF     | Asofe                             ";
  B "| 297        | 0x80000129                    | MASS    | MASS                              ";
  B "| 298        | 0x8000012a                    | FAIR    | FairCoin                          ";
  B "| 299        | 0x8000012b                    | NUKO    | Nekonium                          ";
  B "| 300        | 0x8000012c                    | GNX     | Genaro Network                    ";
  B "| 301        | 0x8000012d                    | DIVI    | Divi Project                      ";
  B "| 302        | 0x8000012e                    | CMT     | Community                         ";
  B "| 303        | 0x8000012f                    | EUNO    | EUNO                              ";
  B "| 304        | 0x80000130                    | IOTX    | IoTeX                             ";
  B "| 305        | 0x80000131                    | ONION   | DeepOnion                         ";
  B "| 306        | 0x80000132                    | 8BIT    | 8Bit                              ";
  B "| 307        | 0x80000133                    | ATC     | AToken Coin                       ";
  B "| 308        | 0x80000134                    | BTS     | Bitshares                         ";
  B "| 309        | 0x80000135                    | CKB     | Nervos CKB                        ";
  B "| 310        | 0x80000136                    | UGAS    | Ultrain                           ";
  B "| 311        | 0x80000137                    | ADS     | Adshares                          ";
  B "| 312        | 0x80000138                    | ARA     | Aura                              ";
  B "| 313        | 0x80000139                    | ZIL     | Zilliqa                           ";
  B "| 314        | 0x8000013a                    | MOAC    | MOAC                              ";
  B "| 315        | 0x8000013b                    | SWTC    | SWTC                              ";
  B "| 316        | 0x8000013c                    | VNSC    | vnscoin                           ";
  B "| 317        | 0x8000013d                    | PLUG    | Pl^g                              ";
  B "| 318        | 0x8000013e                    | MAN     | Matrix AI Network                 ";
  B "| 319        | 0x8000013f                    | ECC     | ECCoin                            ";
  B "| 320        | 0x80000140                    | RPD     | Rapids                            ";
  B "| 321        | 0x80000141                    | RAP     | Rapture                           ";
  B "| 322        | 0x80000142                    | GARD    | Hashgard                          ";
  B "| 323        | 0x80000143                    | ZER     | Zero                              ";
  B "| 324        | 0x80000144                    | EBST    | eBoost                            ";
  B "| 325        | 0x80000145                    | SHARD   | Shard                             ";
  B "| 326        | 0x80000146                    | MRX     | Metrix Coin                       ";
  B "| 327        | 0x80000147                    | CMM     | Commercium                        ";
  B "| 328        | 0x80000148                    | BLOCK   | Blocknet                          ";
  B "| 329        | 0x80000149                    | AUDAX   | AUDAX                             ";
  B "| 330        | 0x8000014a                    | LUNA    | Terra                             ";
  B "| 331        | 0x8000014b                    | ZPM     | zPrime                            ";
  B "| 332        | 0x8000014c                    | KUVA    | Kuva Utility Note                 ";
  B "| 333        | 0x8000014d                    | MEM     | MemCoin                           ";
  B "| 334        | 0x8000014e                    | CS      | Credits                           ";
  B "| 335        | 0x8000014f                    | SWIFT   | SwiftCash                         ";
  B "| 336        | 0x80000150                    | FIX     | FIX                               ";
  B "| 337        | 0x80000151                    | CPC     | CPChain                           ";
  B "| 338        | 0x80000152                    | VGO     | VirtualGoodsToken                 ";
  B "| 339        | 0x80000153                    | DVT     | DeVault                           ";
  B "| 340        | 0x80000154                    | N8V     | N8VCoin                           ";
  B "| 341        | 0x80000155                    | MTNS    | OmotenashiCoin                    ";
  B "| 342        | 0x80000156                    | BLAST   | BLAST                             ";
  B "| 343        | 0x80000157                    | DCT     | DECENT                            ";
  B "| 344        | 0x80000158                    | AUX     | Auxilium                          ";
  B "| 345        | 0x80000159                    | USDP    | USDP                              ";
  B "| 346        | 0x8000015a                    | HTDF    | HTDF                              ";
  B "| 347        | 0x8000015b                    | YEC     | Ycash                             ";
  B "| 348        | 0x8000015c                    | QLC     | QLC Chain                         ";
  B "| 349        | 0x8000015d                    | TEA     | Icetea Blockchain                 ";
  B "| 350        | 0x8000015e                    | ARW     | ArrowChain                        ";
  B "| 351        | 0x8000015f                    | MDM     | Medium                            ";
  B "| 352        | 0x80000160                    | CYB     | Cybex                             ";
  B "| 353        | 0x80000161                    | LTO     | LTO Network                       ";
  B "| 354        | 0x80000162                    | DOT     | Polkadot                          ";
  B "| 355        | 0x80000163                    | AEON    | Aeon                              ";
  B "| 356        | 0x80000164                    | RES     | Resistance                        ";
  B "| 357        | 0x80000165                    | AYA     | Aryacoin                          ";
  B "| 358        | 0x80000166                    | DAPS    | Dapscoin                          ";
  B "| 359        | 0x80000167                    | CSC     | CasinoCoin                        ";
  B "| 360        | 0x80000168                    | VSYS    | V Systems                         ";
  B "| 361        | 0x80000169                    | NOLLAR  | Nollar                            ";
  B "| 362        | 0x8000016a                    | XNOS    | NOS                               ";
  B "| 363        | 0x8000016b                    | CPU     | CPUchain                          ";
  B "| 364        | 0x8000016c                    | LAMB    | Lambda Storage Chain              ";
  B "| 365        | 0x8000016d                    | VCT     | ValueCyber                        ";
  B "| 366        | 0x8000016e                    | CZR     | Canonchain                        ";
  B "| 367        | 0x8000016f                    | ABBC    | ABBC                              ";
  B "| 368        | 0x80000170                    | HET     | HET                               ";
  B "| 369        | 0x80000171                    | XAS     | Asch                              ";
  B "| 370        | 0x80000172                    | VDL     | Vidulum                           ";
  B "| 371        | 0x80000173                    | MED     | MediBloc                          ";
  B "| 372        | 0x80000174                    | ZVC     | ZVChain                           ";
  B "| 373        | 0x80000175                    | VESTX   | Vestx                             ";
  B "| 374        | 0x80000176                    | DBT     | DarkBit                           ";
  B "| 375        | 0x80000177                    | SEOS    | SuperEOS                          ";
  B "| 376        | 0x80000178                    | MXW     | Maxonrow                          ";
  B "| 377        | 0x80000179                    | ZNZ     | ZENZO                             ";
  B "| 378        | 0x8000017a                    | XCX     | XChain                            ";
  B "| 379        | 0x8000017b                    | SOX     | SonicX                            ";
  B "| 380        | 0x8000017c                    | NYZO    | Nyzo                              ";
  B "| 381        | 0x8000017d                    | ULC     | ULCoin                            ";
  B "| 382        | 0x8000017e                    | RYO     | Ryo Currency                      ";
  B "| 383        | 0x8000017f                    | KAL     | Kaleidochain                      ";
  B "| 384        | 0x80000180                    | XSN     | Stakenet                          ";
  B "| 385        | 0x80000181                    | DOGEC   | DogeCash                          ";
  B "| 386        | 0x80000182                    | BMV     | Bitcoin Matteo's Vision           ";
  B "| 387        | 0x80000183                    | QBC     | Quebecoin                         ";
  B "| 388        | 0x80000184                    | IMG     | ImageCoin                         ";
  B "| 389        | 0x80000185                    | QOS     | QOS                               ";
  B "| 390        | 0x80000186                    | PKT     | PKT                               ";
  B "| 391        | 0x80000187                    | LHD     | LitecoinHD                        ";
  B "| 392        | 0x80000188                    | CENNZ   | CENNZnet                          ";
  B "| 393        | 0x80000189                    | HSN     | Hyper Speed Network               ";
  B "| 394        | 0x8000018a                    | CRO     | Crypto Chain                      ";
  B "| 395        | 0x8000018b                    | UMBRU   | Umbru                             ";
  B "| 396        | 0x8000018c                    | EVER    | Everscale                         ";
  B "| 397        | 0x8000018d                    | NEAR    | NEAR Protocol                     ";
  B "| 398        | 0x8000018e                    | XPC     | XPChain                           ";
  B "| 399        | 0x8000018f                    | ZOC     | 01coin                            ";
  B "| 400        | 0x80000190                    | NIX     | NIX                               ";
  B "| 401        | 0x80000191                    | UC      | Utopiacoin                        ";
  B "| 402        | 0x80000192                    | GALI    | Galilel                           ";
  B "| 403        | 0x80000193                    | OLT     | Oneledger                         ";
  B "| 404        | 0x80000194                    | XBI     | XBI                               ";
  B "| 405        | 0x80000195                    | DONU    | DONU                              ";
  B "| 406        | 0x80000196                    | EARTHS  | Earths                            ";
  B "| 407        | 0x80000197                    | HDD     | HDDCash                           ";
  B "| 408        | 0x80000198                    | SUGAR   | Sugarchain                        ";
  B "| 409        | 0x80000199                    | AILE    | AileCoin                          ";
  B "| 410        | 0x8000019a                    | TENT    | TENT                              ";
  B "| 411        | 0x8000019b                    | TAN     | Tangerine Network                 ";
  B "| 412        | 0x8000019c                    | AIN     | AIN                               ";
  B "| 413        | 0x8000019d                    | MSR     | Masari                            ";
  B "| 414        | 0x8000019e                    | SUMO    | Sumokoin                          ";
  B "| 415        | 0x8000019f                    | ETN     | Electroneum                       ";
  B "| 416        | 0x800001a0                    | BYTZ    | BYTZ                              ";
  B "| 417        | 0x800001a1                    | WOW     | Wownero                           ";
  B "| 418        | 0x800001a2                    | XTNC    | XtendCash                         ";
  B "| 419        | 0x800001a3                    | LTHN    | Lethean                           ";
  B "| 420        | 0x800001a4                    | NODE    | NodeHost                          ";
  B "| 421        | 0x800001a5                    | AGM     | Argoneum                          ";
  B "| 422        | 0x800001a6                    | CCX     | Conceal Network                   ";
  B "| 423        | 0x800001a7                    | TNET    | Title Network                     ";
  B "| 424        | 0x800001a8                    | TELOS   | TelosCoin                         ";
  B "| 425        | 0x800001a9                    | AION    | Aion                              ";
  B "| 426        | 0x800001aa                    | BC      | Bitcoin Confidential              ";
  B "| 427        | 0x800001ab                    | KTV     | KmushiCoin                        ";
  B "| 428        | 0x800001ac                    | ZCR     | ZCore                             ";
  B "| 429        | 0x800001ad                    | ERG     | Ergo                              ";
  B "| 430        | 0x800001ae                    | PESO    | Criptopeso                        ";
  B "| 431        | 0x800001af                    | BTC2    | Bitcoin 2                         ";
  B "| 432        | 0x800001b0                    | XRPHD   | XRPHD                             ";
  B "| 433        | 0x800001b1                    | WE      | WE Coin                           ";
  B "| 434        | 0x800001b2                    | KSM     | Kusama                            ";
  B "| 435        | 0x800001b3                    | PCN     | Peepcoin                          ";
  B "| 436        | 0x800001b4                    | NCH     | NetCloth                          ";
  B "| 437        | 0x800001b5                    | ICU     | CHIPO                             ";
  B "| 438        | 0x800001b6                    | FNSA    | FINSCHIA                          ";
  B "| 439        | 0x800001b7                    | DTP     | DeVault Token Protocol            ";
  B "| 440        | 0x800001b8                    | BTCR    | Bitcoin Royale                    ";
  B "| 441        | 0x800001b9                    | AERGO   | AERGO                             ";
  B "| 442        | 0x800001ba                    | XTH     | Dothereum                         ";
  B "| 443        | 0x800001bb                    | LV      | Lava                              ";
  B "| 444        | 0x800001bc                    | PHR     | Phore                             ";
  B "| 445        | 0x800001bd                    | VITAE   | Vitae                             ";
  B "| 446        | 0x800001be                    | COCOS   | Cocos-BCX                         ";
  B "| 447        | 0x800001bf                    | DIN     | Dinero                            ";
  B "| 448        | 0x800001c0                    | SPL     | Simplicity                        ";
  B "| 449        | 0x800001c1                    | YCE     | MYCE                              ";
  B "| 450        | 0x800001c2                    | XLR     | Solaris                           ";
  B "| 451        | 0x800001c3                    | KTS     | Klimatas                          ";
  B "| 452        | 0x800001c4                    | DGLD    | DGLD                              ";
  B "| 453        | 0x800001c5                    | XNS     | Insolar                           ";
  B "| 454        | 0x800001c6                    | EM      | EMPOW                             ";
  B "| 455        | 0x800001c7                    | SHN     | ShineBlocks                       ";
  B "| 456        | 0x800001c8                    | SEELE   | Seele                             ";
  B "| 457        | 0x800001c9                    | AE      | æternity                          ";
  B "| 458        | 0x800001ca                    | ODX     | ObsidianX                         ";
  B "| 459        | 0x800001cb                    | KAVA    | Kava                              ";
  B "| 460        | 0x800001cc                    | GLEEC   | GLEEC                             ";
  B "| 461        | 0x800001cd                    | FIL     | Filecoin                          ";
  B "| 462        | 0x800001ce                    | RUTA    | Rutanio                           ";
  B "| 463        | 0x800001cf                    | CSDT    | CSDT                              ";
  B "| 464        | 0x800001d0                    | ETI     | EtherInc                          ";
  B "| 465        | 0x800001d1                    | ZSLP    | Zclassic Simple Ledger Protocol   ";
  B "| 466        | 0x800001d2                    | ERE     | EtherCore                         ";
  B "| 467        | 0x800001d3                    | DX      | DxChain Token                     ";
  B "| 468        | 0x800001d4                    | CPS     | Capricoin+                        ";
  B "| 469        | 0x800001d5                    | BTH     | Bithereum                         ";
  B "| 470        | 0x800001d6                    | MESG    | MESG                              ";
  B "| 471        | 0x800001d7                    | FIMK    | FIMK                              ";
  B "| 472        | 0x800001d8                    | AR      | Arweave                           ";
  B "| 473        | 0x800001d9                    | OGO     | Origo                             ";
  B "| 474        | 0x800001da                    | ROSE    | Oasis Network                     ";
  B "| 475        | 0x800001db                    | BARE    | BARE Network                      ";
  B "| 476        | 0x800001dc                    | GLEEC   | GleecBTC                          ";
  B "| 477        | 0x800001dd                    | CLR     | Color Coin                        ";
  B "| 478        | 0x800001de                    | RNG     | Ring                              ";
  B "| 479        | 0x800001df                    | OLO     | Tool Global                       ";
  B "| 480        | 0x800001e0                    | PEXA    | Pexa                              ";
  B "| 481        | 0x800001e1                    | MOON    | Mooncoin                          ";
  B "| 482        | 0x800001e2                    | OCEAN   | Ocean Protocol                    ";
  B "| 483        | 0x800001e3                    | BNT     | Bluzelle Native                   ";
  B "| 484        | 0x800001e4                    | AMO     | AMO Blockchain                    ";
  B "| 485        | 0x800001e5                    | FCH     | FreeCash                          ";
  B "| 486        | 0x800001e6                    | LAT     | PlatON                            ";
  B "| 487        | 0x800001e7                    | COIN    | Bitcoin Bank                      ";
  B "| 488        | 0x800001e8                    | VEO     | Amoveo                            ";
  B "| 489        | 0x800001e9                    | CCA     | Counos Coin                       ";
  B "| 490        | 0x800001ea                    | GFN     | Graphene                          ";
  B "| 491        | 0x800001eb                    | BIP     | Minter Network                    ";
  B "| 492        | 0x800001ec                    | KPG     | Kunpeng Network                   ";
  B "| 493        | 0x800001ed                    | FIN     | FINL Chain                        ";
  B "| 494        | 0x800001ee                    | BAND    | Band                              ";
  B "| 495        | 0x800001ef                    | DROP    | Dropil                            ";
  B "| 496        | 0x800001f0                    | BHT     | Bluehelix Chain                   ";
  B "| 497        | 0x800001f1                    | LYRA    | Scrypta                           ";
  B "| 498        | 0x800001f2                    | CS      | Credits                           ";
  B "| 499        | 0x800001f3                    | RUPX    | Rupaya                            ";
  B "| 500        | 0x800001f4                    | THETA   | Theta                             ";
  B "| 501        | 0x800001f5                    | SOL     | Solana                            ";
  B "| 502        | 0x800001f6                    | THT     | ThoughtAI                         ";
  B "| 503        | 0x800001f7                    | CFX     | Conflux                           ";
  B "| 504        | 0x800001f8                    | KUMA    | Kumacoin                          ";
  B "| 505        | 0x800001f9                    | HASH    | Provenance                        ";
  B "| 506        | 0x800001fa                    | CSPR    | Casper                            ";
  B "| 507        | 0x800001fb                    | EARTH   | EARTH                             ";
  B "| 508        | 0x800001fc                    | EGLD    | MultiversX                        ";
  B "| 509        | 0x800001fd                    | CHI     | Xaya                              ";
  B "| 510        | 0x800001fe                    | KOTO    | Koto                              ";
  B "| 511        | 0x800001ff                    | OTC     | θ                                 ";
  B "| 512        | 0x80000200                    | XRD     | Radiant                           ";
  B "| 513        | 0x80000201                    | SEELEN  | Seele-N                           ";
  B "| 514        | 0x80000202                    | AETH    | AETH                              ";
  B "| 515        | 0x80000203                    | DNA     | Idena                             ";
  B "| 516        | 0x80000204                    | VEE     | Virtual Economy Era               ";
  B "| 517        | 0x80000205                    | SIERRA  | SierraCoin                        ";
  B "| 518        | 0x80000206                    | LET     | Linkeye                           ";
  B "| 519        | 0x80000207                    | BSC     | Bitcoin Smart Contract            ";
  B "| 520        | 0x80000208                    | BTCV    | BitcoinVIP                        ";
  B "| 521        | 0x80000209                    | ABA     | Dabacus                           ";
  B "| 522        | 0x8000020a                    | SCC     | StakeCubeCoin                     ";
  B "| 523        | 0x8000020b                    | EDG     | Edgeware                          ";
  B "| 524        | 0x8000020c                    | AMS     | AmsterdamCoin                     ";
  B "| 525        | 0x8000020d                    | GOSS    | GOSSIP Coin                       ";
  B "| 526        | 0x8000020e                    | BU      | BUMO                              ";
  B "| 527        | 0x8000020f                    | GRAM    | GRAM                              ";
  B "| 528        | 0x80000210                    | YAP     | Yapstone                          ";
  B "| 529        | 0x80000211                    | SCRT    | Secret Network                    ";
  B "| 530        | 0x80000212                    | NOVO    | Novo                              ";
  B "| 531        | 0x80000213                    | GHOST   | Ghost                             ";
  B "| 532        | 0x80000214                    | HST     | HST                               ";
  B "| 533        | 0x80000215                    | PRJ     | ProjectCoin                       ";
  B "| 534        | 0x80000216                    | YOU     | YOUChain                          ";
  B "| 535        | 0x80000217                    | XHV     | Haven Protocol                    ";
  B "| 536        | 0x80000218                    | BYND    | Beyondcoin                        ";
  B "| 537        | 0x80000219                    | JOYS    | Joys Digital                      ";
  B "| 538        | 0x8000021a                    | VAL     | Valorbit                          ";
  B "| 539        | 0x8000021b                    | FLOW    | Flow                              ";
  B "| 540        | 0x8000021c                    | SMESH   | Spacemesh Coin                    ";
  B "| 541        | 0x8000021d                    | SCDO    | SCDO                              ";
  B "| 542        | 0x8000021e                    | IQS     | IQ-Cash                           ";
  B "| 543        | 0x8000021f                    | BIND    | Compendia                         ";
  B "| 544        | 0x80000220                    | COINEVO | Coinevo                           ";
  B "| 545        | 0x80000221                    | SCRIBE  | Scribe                            ";
  B "| 546        | 0x80000222                    | HYN     | Hyperion                          ";
  B "| 547        | 0x80000223                    | BHP     | BHP                               ";
  B "| 548        | 0x80000224                    | BBC     | BigBang Core                      ";
  B "| 549        | 0x80000225                    | MKF     | MarketFinance                     ";
  B "| 550        | 0x80000226                    | XDC     | XinFin                            ";
  B "| 551        | 0x80000227                    | STR     | Straightedge                      ";
  B "| 552        | 0x80000228                    | SUM     | Sumcoin                           ";
  B "| 553        | 0x80000229                    | HBC     | HuobiChain                        ";
  B "| 554        | 0x8000022a                    | ---     | reserved                          ";
  B "| 555        | 0x8000022b                    | BCS     | Bitcoin Smart                     ";
  B "| 556        | 0x8000022c                    | KTS     | Kratos                            ";
  B "| 557        | 0x8000022d                    | LKR     | Lkrcoin                           ";
  B "| 558        | 0x8000022e                    | TAO     | Tao                               ";
  B "| 559        | 0x8000022f                    | XWC     | Whitecoin                         ";
  B "| 560        | 0x80000230                    | DEAL    | DEAL                              ";
  B "| 561        | 0x80000231                    | NTY     | Nexty                             ";
  B "| 562        | 0x80000232                    | TOP     | TOP NetWork                       ";
  B "| 563        | 0x80000233                    | ---     | reserved                          ";
  B "| 564        | 0x80000234                    | AG      | Agoric                            ";
  B "| 565        | 0x80000235                    | CICO    | Coinicles                         ";
  B "| 566        | 0x80000236                    | IRIS    | Irisnet                           ";
  B "| 567        | 0x80000237                    | NCG     | Nine Chronicles                   ";
  B "| 568        | 0x80000238                    | LRG     | Large Coin                        ";
  B "| 569        | 0x80000239                    | SERO    | Super Zero Protocol               ";
  B "| 570        | 0x8000023a                    | BDX     | Beldex                            ";
  B "| 571        | 0x8000023b                    | CCXX    | Counos X                          ";
  B "| 572        | 0x8000023c                    | SLS     | Saluscoin                         ";
  B "| 573        | 0x8000023d                    | SRM     | Serum                             ";
  B "| 574        | 0x8000023e                    | ---     | reserved                          ";
  B "| 575        | 0x8000023f                    | VIVT    | VIDT Datalink                     ";
  B "| 576        | 0x80000240                    | BPS     | BitcoinPoS                        ";
  B "| 577        | 0x80000241                    | NKN     | NKN                               ";
  B "| 578        | 0x80000242                    | ICL     | ILCOIN                            ";
  B "| 579        | 0x80000243                    | BONO    | Bonorum                           ";
  B "| 580        | 0x80000244                    | PLC     | PLATINCOIN                        ";
  B "| 581        | 0x80000245                    | DUN     | Dune                              ";
  B "| 582        | 0x80000246                    | DMCH    | Darmacash                         ";
  B "| 583        | 0x80000247                    | CTC     | Creditcoin                        ";
  B "| 584        | 0x80000248                    | KELP    | Haidai Network                    ";
  B "| 585        | 0x80000249                    | GBCR    | GoldBCR                           ";
  B "| 586        | 0x8000024a                    | XDAG    | XDAG                              ";
  B "| 587        | 0x8000024b                    | PRV     | Incognito Privacy                 ";
  B "| 588        | 0x8000024c                    | SCAP    | SafeCapital                       ";
  B "| 589        | 0x8000024d                    | TFUEL   | Theta Fuel                        ";
  B "| 590        | 0x8000024e                    | GTM     | Gentarium                         ";
  B "| 591        | 0x8000024f                    | RNL     | RentalChain                       ";
  B "| 592        | 0x80000250                    | GRIN    | Grin                              ";
  B "| 593        | 0x80000251                    | MWC     | MimbleWimbleCoin                  ";
  B "| 594        | 0x80000252                    | DOCK    | Dock                              ";
  B "| 595        | 0x80000253                    | POLYX   | Polymesh                          ";
  B "| 596        | 0x80000254                    | DIVER   | Divergenti                        ";
  B "| 597        | 0x80000255                    | XEP     | Electra Protocol                  ";
  B "| 598        | 0x80000256                    | APN     | Apron                             ";
  B "| 599        | 0x80000257                    | TFC     | Turbo File Coin                   ";
  B "| 600        | 0x80000258                    | UTE     | Unit-e                            ";
  B "| 601        | 0x80000259                    | MTC     | Metacoin                          ";
  B "| 602        | 0x8000025a                    | NC      | NobodyCash                        ";
  B "| 603        | 0x8000025b                    | XINY    | Xinyuehu                          ";
  B "| 604        | 0x8000025c                    | DYN     | Dynamo                            ";
  B "| 605        | 0x8000025d                    | BUFS    | Buffer                            ";
  B "| 606        | 0x8000025e                    | STOS    | Stratos                           ";
  B "| 607        | 0x8000025f                    | TON     | TON                               ";
  B "| 608        | 0x80000260                    | TAFT    | TAFT                              ";
  B "| 609        | 0x80000261                    | HYDRA   | HYDRA                             ";
  B "| 610        | 0x80000262                    | NOR     | Noir                              ";
  B "| 611        | 0x80000263                    |         | Manta Network Private Asset       ";
  B "| 612        | 0x80000264                    |         | Calamari Network Private Asset    ";
  B "| 613        | 0x80000265                    | WCN     | Widecoin                          ";
  B "| 614        | 0x80000266                    | OPT     | Optimistic Ethereum               ";
  B "| 615        | 0x80000267                    | PSWAP   | PolkaSwap                         ";
  B "| 616        | 0x80000268                    | VAL     | Validator                         ";
  B "| 617        | 0x80000269                    | XOR     | Sora                              ";
  B "| 618        | 0x8000026a                    | SSP     | SmartShare                        ";
  B "| 619        | 0x8000026b                    | DEI     | DeimosX                           ";
  B "| 620        | 0x8000026c                    | ---     | reserved                          ";
  B "| 621        | 0x8000026d                    | ZERO    | Singularity                       ";
  B "| 622        | 0x8000026e                    | ALPHA   | AlphaDAO                          ";
  B "| 623        | 0x8000026f                    | BDECO   | BDCashProtocol Ecosystem          ";
  B "| 624        | 0x80000270                    | NOBL    | Nobility                          ";
  B "| 625        | 0x80000271                    | EAST    | Eastcoin                          ";
  B "| 626        | 0x80000272                    | KDA     | Kadena                            ";
  B "| 627        | 0x80000273                    | SOUL    | Phantasma                         ";
  B "| 628        | 0x80000274                    | LORE    | Gitopia                           ";
  B "| 629        | 0x80000275                    | FNR     | Fincor                            ";
  B "| 630        | 0x80000276                    | NEXUS   | Nexus                             ";
  B "| 631        | 0x80000277                    | QTZ     | Quartz                            ";
  B "| 632        | 0x80000278                    | MAS     | Massa                             ";
  B "| 633        | 0x80000279                    | CALL    | Callchain                         ";
  B "| 634        | 0x8000027a                    | VAL     | Validity                          ";
  B "| 635        | 0x8000027b                    | POKT    | Pocket Network                    ";
  B "| 636        | 0x8000027c                    | EMIT    | EMIT                              ";
  B "| 637        | 0x8000027d                    | APTOS   | Aptos                             ";
  B "| 638        | 0x8000027e                    | ADON    | ADON                              ";
  B "| 639        | 0x8000027f                    | BTSG    | BitSong                           ";
  B "| 640        | 0x80000280                    | LFC     | Leofcoin                          ";
  B "| 641        | 0x80000281                    | KCS     | KuCoin Shares                     ";
  B "| 642        | 0x80000282                    | KCC     | KuCoin Community Chain            ";
  B "| 643        | 0x80000283                    | AZERO   | Aleph Zero                        ";
  B "| 644        | 0x80000284                    | TREE    | Tree                              ";
  B "| 645        | 0x80000285                    | LX      | Lynx                              ";
  B "| 646        | 0x80000286                    | XLN     | Lunarium                          ";
  B "| 647        | 0x80000287                    | CIC     | CIC Chain                         ";
  B "| 648        | 0x80000288                    | ZRB     | Zarb                              ";
  B "| 649        | 0x80000289                    | ---     | reserved                          ";
  B "| 650        | 0x8000028a                    | UCO     | Archethic                         ";
  B "| 651        | 0x8000028b                    | SFX     | Safex Cash                        ";
  B "| 652        | 0x8000028c                    | SFT     | Safex Token                       ";
  B "| 653        | 0x8000028d                    | WSFX    | Wrapped Safex Cash                ";
  B "| 654        | 0x8000028e                    | USDG    | US Digital Gold                   ";
  B "| 655        | 0x8000028f                    | WMP     | WAMP                              ";
  B "| 656        | 0x80000290                    | EKTA    | Ekta                              ";
  B "| 657        | 0x80000291                    | YDA     | YadaCoin                          ";
  B "| 658        | 0x80000292                    |         ";
  B "| 659        | 0x80000293                    | KOIN    | Koinos                            ";
  B "| 660        | 0x80000294                    | PIRATE  | PirateCash                        ";
  B "| 661        | 0x80000295                    | UNQ     | Unique                            ";
  B "| 662        | 0x80000296                    |         ";
  B "| 663        | 0x80000297                    | SFRX    | EtherGem Sapphire                 ";
  B "| 664        | 0x80000298                    | BSTY    | GlobalBoost-Y                     ";
  B "| 665        | 0x80000299                    | IMP     | Impact Protocol                   ";
  B "| 666        | 0x8000029a                    | ACT     | Achain                            ";
  B "| 667        | 0x8000029b                    | PRKL    | Perkle                            ";
  B "| 668        | 0x8000029c                    | SSC     | SelfSell                          ";
  B "| 669        | 0x8000029d                    | GC      | GateChain                         ";
  B "| 670        | 0x8000029e                    | PLGR    | Pledger                           ";
  B "| 671        | 0x8000029f                    | MPLGR   | Pledger                           ";
  B "| 672        | 0x800002a0                    | KNOX    | Knox                              ";
  B "| 673        | 0x800002a1                    | ZED     | ZED                               ";
  B "| 674        | 0x800002a2                    | CNDL    | Candle                            ";
  B "| 675        | 0x800002a3                    | WLKR    | Walker Crypto Innovation Index    ";
  B "| 676        | 0x800002a4                    | WLKRR   | Walker                            ";
  B "| 677        | 0x800002a5                    | YUNGE   | Yunge                             ";
  B "| 678        | 0x800002a6                    | Voken   | Voken                             ";
  B "| 679        | 0x800002a7                    | APL     | Apollo                            ";
  B "| 680        | 0x800002a8                    | Evrynet | Evrynet                           ";
  B "| 681        | 0x800002a9                    | NENG    | Nengcoin                          ";
  B "| 682        | 0x800002aa                    | CHTA    | Cheetahcoin                       ";
  B "| 683        | 0x800002ab                    | ALEO    | Aleo Network                      ";
  B "| 684        | 0x800002ac                    |         ";
  B "| 685        | 0x800002ad                    | OAS     | Oasys                             ";
  B "| 686        | 0x800002ae                    | KAR     | Karura Network                    ";
  B "| 687        | 0x800002af                    |         ";
  B "| 688        | 0x800002b0                    | CET     | CoinEx Chain                      ";
  B "| 689        | 0x800002b1                    |         ";
  B "| 690        | 0x800002b2                    | KLV     | KleverChain                       ";
  B "| 691        | 0x800002b3                    |         ";
  B "| 692        | 0x800002b4                    |         ";
  B "| 693        | 0x800002b5                    |         ";
  B "| 694        | 0x800002b6                    | VTBC    | VTB Community                     ";
  B "| 695        | 0x800002b7                    |         ";
  B "| 696        | 0x800002b8                    |         ";
  B "| 697        | 0x800002b9                    |         ";
  B "| 698        | 0x800002ba                    | VEIL    | Veil                              ";
  B "| 699        | 0x800002bb                    | GTB     | GotaBit                           ";
  B "| 700        | 0x800002bc                    | XDAI    | xDai                              ";
  B "| 701        | 0x800002bd                    | COM     | Commercio                         ";
  B "| 702        | 0x800002be                    | CCC     | Commercio Cash Credit             ";
  B "| 703        | 0x800002bf                    |         ";
  B "| 704        | 0x800002c0                    | RAQ     | Ra Quantum                        ";
  B "| 705        | 0x800002c1                    | PEG     | Pegasus Token                     ";
  B "| 706        | 0x800002c2                    | LKG     | Lionking                          ";
  B "| 707        | 0x800002c3                    | MCOIN   | Moneta Coin                       ";
  B "| 708        | 0x800002c4                    |         ";
  B "| 709        | 0x800002c5                    |         ";
  B "| 710        | 0x800002c6                    | FURY    | Highbury                          ";
  B "| 711        | 0x800002c7                    | CHC     | Chaincoin                         ";
  B "| 712        | 0x800002c8                    | SERF    | Serfnet                           ";
  B "| 713        | 0x800002c9                    | XTL     | Katal Chain                       ";
  B "| 714        | 0x800002ca                    | BNB     | Binance                           ";
  B "| 715        | 0x800002cb                    | SIN     | Sinovate                          ";
  B "| 716        | 0x800002cc                    | DLN     | Delion                            ";
  B "| 717        | 0x800002cd                    | BONTE   | Bontecoin                         ";
  B "| 718        | 0x800002ce                    | PEER    | Peer                              ";
  B "| 719        | 0x800002cf                    | ZET     | Zetacoin                          ";
  B "| 720        | 0x800002d0                    | ABY     | Artbyte                           ";
  B "| 721        | 0x800002d1                    | PGX     | Mirai Chain                       ";
  B "| 722        | 0x800002d2                    | IL8P    | InfiniLooP                        ";
  B "| 723        | 0x800002d3                    |         ";
  B "| 724        | 0x800002d4                    | XVC     | Vanillacash                       ";
  B "| 725        | 0x800002d5                    | MCX     | MultiCash                         ";
  B "| 726        | 0x800002d6                    |         ";
  B "| 727        | 0x800002d7                    | BLU     | BluCrates                         ";
  B "| 728        | 0x800002d8                    |         ";
  B "| 729        | 0x800002d9                    |         ";
  B "| 730        | 0x800002da                    | HEALIOS | Tenacity                          ";
  B "| 731        | 0x800002db                    | BMK     | Bitmark                           ";
  B "| 732        | 0x800002dc                    |         ";
  B "| 733        | 0x800002dd                    |         ";
  B "| 734        | 0x800002de                    | DENTX   | DENTNet                           ";
  B "| 735        | 0x800002df                    |         ";
  B "| 736        | 0x800002e0                    |         ";
  B "| 737        | 0x800002e1                    | ATOP    | Financial Blockchain              ";
  B "| 738        | 0x800002e2                    |         ";
  B "| 739        | 0x800002e3                    |         ";
  B "| 740        | 0x800002e4                    |         ";
  B "| 741        | 0x800002e5                    |         ";
  B "| 742        | 0x800002e6                    |         ";
  B "| 743        | 0x800002e7                    |         ";
  B "| 744        | 0x800002e8                    |         ";
  B "| 745        | 0x800002e9                    |         ";
  B "| 746        | 0x800002ea                    |         ";
  B "| 747        | 0x800002eb                    | CFG     | Centrifuge                        ";
  B "| 748        | 0x800002ec                    |         ";
  B "| 749        | 0x800002ed                    |         ";
  B "| 750        | 0x800002ee                    | XPRT    | Persistence                       ";
  B "| 751        | 0x800002ef                    |         ";
  B "| 752        | 0x800002f0                    |         ";
  B "| 753        | 0x800002f1                    |         | Age X25519 Encryption             ";
  B "| 754        | 0x800002f2                    |         | Age NIST Encryption               ";
  B "| 755        | 0x800002f3                    |         ";
  B "| 756        | 0x800002f4                    |         ";
  B "| 757        | 0x800002f5                    | HONEY   | HoneyWood                         ";
  B "| 758        | 0x800002f6                    |         ";
  B "| 759        | 0x800002f7                    |         ";
  B "| 760        | 0x800002f8                    |         ";
  B "| 761        | 0x800002f9                    |         ";
  B "| 762        | 0x800002fa                    |         ";
  B "| 763        | 0x800002fb                    |         ";
  B "| 764        | 0x800002fc                    |         ";
  B "| 765        | 0x800002fd                    |         ";
  B "| 766        | 0x800002fe                    |         ";
  B "| 767        | 0x800002ff                    |         ";
  B "| 768        | 0x80000300                    | BALLZ   | Ballzcoin                         ";
  B "| 769        | 0x80000301                    |         ";
  B "| 770        | 0x80000302                    | COSA    | Cosanta                           ";
  B "| 771        | 0x80000303                    | BR      | BR                                ";
  B "| 772        | 0x80000304                    |         ";
  B "| 773        | 0x80000305                    | CSB     | CosmoBliss                        ";
  B "| 774        | 0x80000306                    |         ";
  B "| 775        | 0x80000307                    | PLSR    | Pulsar Coin                       ";
  B "| 776        | 0x80000308                    | KEY     | Keymaker Coin                     ";
  B "| 777        | 0x80000309                    | BTW     | Bitcoin World                     ";
  B "| 778        | 0x8000030a                    |         ";
  B "| 779        | 0x8000030b                    |         ";
  B "| 780        | 0x8000030c                    | PLCUC   | PLC Ultima Classic                ";
  B "| 781        | 0x8000030d                    | PLCUX   | PLC Ultima X                      ";
  B "| 782        | 0x8000030e                    | PLCU    | PLC Ultima                        ";
  B "| 783        | 0x8000030f                    | SMARTBC | SMART Blockchain                  ";
  B "| 784        | 0x80000310                    | SUI     | Sui                               ";
  B "| 785        | 0x80000311                    |         ";
  B "| 786        | 0x80000312                    | UIDD    | UIDD                              ";
  B "| 787        | 0x80000313                    | ACA     | Acala                             ";
  B "| 788        | 0x80000314                    | BNC     | Bifrost                           ";
  B "| 789        | 0x80000315                    | TAU     | Lamden                            ";
  B "| 790        | 0x80000316                    |         ";
  B "| 791        | 0x80000317                    |         ";
  B "| 792        | 0x80000318                    |         ";
  B "| 793        | 0x80000319                    |         ";
  B "| 794        | 0x8000031a                    | INTR    | Interlay                          ";
  B "| 795        | 0x8000031b                    | KINT    | Kintsugi                          ";
  B "| 796        | 0x8000031c                    |         ";
  B "| 797        | 0x8000031d                    |         ";
  B "| 798        | 0x8000031e                    |         ";
  B "| 799        | 0x8000031f                    | PDEX    | Polkadex                          ";
  B "| 800        | 0x80000320                    | BEET    | Beetle Coin                       ";
  B "| 801        | 0x80000321                    | DST     | DSTRA                             ";
  B "| 802        | 0x80000322                    | CY      | Cyberyen                          ";
  B "| 803        | 0x80000323                    |         ";
  B "| 804        | 0x80000324                    | ZKS     | zkSync                            ";
  B "| 805        | 0x80000325                    |         ";
  B "| 806        | 0x80000326                    |         ";
  B "| 807        | 0x80000327                    |         ";
  B "| 808        | 0x80000328                    | QVT     | Qvolta                            ";
  B "| 809        | 0x80000329                    | SDN     | Shiden Network                    ";
  B "| 810        | 0x8000032a                    | ASTR    | Astar Network                     ";
  B "| 811        | 0x8000032b                    | ---     | reserved                          ";
  B "| 812        | 0x8000032c                    |         ";
  B "| 813        | 0x8000032d                    | MEER    | Qitmeer                           ";
  B "| 814        | 0x8000032e                    |         ";
  B "| 815        | 0x8000032f                    |         ";
  B "| 816        | 0x80000330                    | FSC     | FSC                               ";
  B "| 817        | 0x80000331                    |         ";
  B "| 818        | 0x80000332                    | VET     | VeChain Token                     ";
  B "| 819        | 0x80000333                    | REEF    | Reef                              ";
  B "| 820        | 0x80000334                    | CLO     | Callisto                          ";
  B "| 821        | 0x80000335                    |         ";
  B "| 822        | 0x80000336                    | BDB     | BigchainDB                        ";
  B "| 823        | 0x80000337                    |         ";
  B "| 824        | 0x80000338                    | RBNT    | Redbelly Network                  ";
  B "| 825        | 0x80000339                    |         ";
  B "| 826        | 0x8000033a                    |         ";
  B "| 827        | 0x8000033b                    | ACE     | Endurance                         ";
  B "| 828        | 0x8000033c                    | CCN     | ComputeCoin                       ";
  B "| 829        | 0x8000033d                    | BBA     | BBACHAIN                          ";
  B "| 830        | 0x8000033e                    |         ";
  B "| 831        | 0x8000033f                    | CRUZ    | cruzbit                           ";
  B "| 832        | 0x80000340                    | SAPP    | Sapphire                          ";
  B "| 833        | 0x80000341                    | 777     | Jackpot                           ";
  B "| 834        | 0x80000342                    | KYAN    | Kyanite                           ";
  B "| 835        | 0x80000343                    | AZR     | Azzure                            ";
  B "| 836        | 0x80000344                    | CFL     | CryptoFlow                        ";
  B "| 837        | 0x80000345                    | DASHD   | Dash Diamond                      ";
  B "| 838        | 0x80000346                    | TRTT    | Trittium                          ";
  B "| 839        | 0x80000347                    | UCR     | Ultra Clear                       ";
  B "| 840        | 0x80000348                    | PNY     | Peony                             ";
  B "| 841        | 0x80000349                    | BECN    | Beacon                            ";
  B "| 842        | 0x8000034a                    | MONK    | Monk                              ";
  B "| 843        | 0x8000034b                    | SAGA    | CryptoSaga                        ";
  B "| 844        | 0x8000034c                    | SUV     | Suvereno                          ";
  B "| 845        | 0x8000034d                    | ESK     | EskaCoin                          ";
  B "| 846        | 0x8000034e                    | OWO     | OneWorld Coin                     ";
  B "| 847        | 0x8000034f                    | PEPS    | PEPS Coin                         ";
  B "| 848        | 0x80000350                    | BIR     | Birake                            ";
  B "| 849        | 0x80000351                    | MOBIC   | MobilityCoin                      ";
  B "| 850        | 0x80000352                    | FLS     | Flits                             ";
  B "| 851        | 0x80000353                    | FRECO   | Freco                             ";
  B "| 852        | 0x80000354                    | DSM     | Desmos                            ";
  B "| 853        | 0x80000355                    | PRCY    | PRCY Coin                         ";
  B "| 854        | 0x80000356                    |         ";
  B "| 855        | 0x80000357                    |         ";
  B "| 856        | 0x80000358                    |         ";
  B "| 857        | 0x80000359                    |         ";
  B "| 858        | 0x8000035a                    | HVH     | HAVAH                             ";
  B "| 859        | 0x8000035b                    |         ";
  B "| 860        | 0x8000035c                    |         ";
  B "| 861        | 0x8000035d                    |         ";
  B "| 862        | 0x8000035e                    |         ";
  B "| 863        | 0x8000035f                    |         ";
  B "| 864        | 0x80000360                    |         ";
  B "| 865        | 0x80000361                    |         ";
  B "| 866        | 0x80000362                    | MOB     | MobileCoin                        ";
  B "| 867        | 0x80000363                    |         ";
  B "| 868        | 0x80000364                    | IF      | Infinitefuture                    ";
  B "| 869        | 0x80000365                    |         ";
  B "| 870        | 0x80000366                    |         ";
  B "| 871        | 0x80000367                    |         ";
  B "| 872        | 0x80000368                    |         ";
  B "| 873        | 0x80000369                    |         ";
  B "| 874        | 0x8000036a                    |         ";
  B "| 875        | 0x8000036b                    |         ";
  B "| 876        | 0x8000036c                    |         ";
  B "| 877        | 0x8000036d                    | NAM     | Namada                            ";
  B "| 878        | 0x8000036e                    | SCR     | Scorum Network                    ";
  B "| 879        | 0x8000036f                    |         ";
  B "| 880        | 0x80000370                    | LUM     | Lum Network                       ";
  B "| 881        | 0x80000371                    |         ";
  B "| 882        | 0x80000372                    |         ";
  B "| 883        | 0x80000373                    | ZBC     | ZooBC                             ";
  B "| 884        | 0x80000374                    |         ";
  B "| 885        | 0x80000375                    |         ";
  B "| 886        | 0x80000376                    | ADF     | AD Token                          ";
  B "| 887        | 0x80000377                    |         ";
  B "| 888        | 0x80000378                    | NEO     | NEO                               ";
  B "| 889        | 0x80000379                    | TOMO    | TOMO                              ";
  B "| 890        | 0x8000037a                    | XSEL    | Seln                              ";
  B "| 891        | 0x8000037b                    |         ";
  B "| 892        | 0x8000037c                    |         ";
  B "| 893        | 0x8000037d                    |         ";
  B "| 894        | 0x8000037e                    |         ";
  B "| 895        | 0x8000037f                    |         ";
  B "| 896        | 0x80000380                    | LKSC    | LKSCoin                           ";
  B "| 897        | 0x80000381                    |         ";
  B "| 898        | 0x80000382                    | AS      | Assetchain                        ";
  B "| 899        | 0x80000383                    | XEC     | eCash                             ";
  B "| 900        | 0x80000384                    | LMO     | Lumeneo                           ";
  B "| 901        | 0x80000385                    | NXT     | NxtMeta                           ";
  B "| 902        | 0x80000386                    |         ";
  B "| 903        | 0x80000387                    |         ";
  B "| 904        | 0x80000388                    | HNT     | Helium                            ";
  B "| 905        | 0x80000389                    |         ";
  B "| 906        | 0x8000038a                    |         ";
  B "| 907        | 0x8000038b                    | FIS     | StaFi                             ";
  B "| 908        | 0x8000038c                    |         ";
  B "| 909        | 0x8000038d                    | SGE     | Saage                             ";
  B "| 910        | 0x8000038e                    |         ";
  B "| 911        | 0x8000038f                    | GERT    | Gert                              ";
  B "| 912        | 0x80000390                    |         ";
  B "| 913        | 0x80000391                    | VARA    | Vara Network                      ";
  B "| 914        | 0x80000392                    |         ";
  B "| 915        | 0x80000393                    |         ";
  B "| 916        | 0x80000394                    | META    | Metadium                          ";
  B "| 917        | 0x80000395                    | FRA     | Findora                           ";
  B "| 918        | 0x80000396                    |         ";
  B "| 919        | 0x80000397                    | CCD     | Concordium                        ";
  B "| 920        | 0x80000398                    |         ";
  B "| 921        | 0x80000399                    | AVN     | Avian Network                     ";
  B "| 922        | 0x8000039a                    |         ";
  B "| 923        | 0x8000039b                    |         ";
  B "| 924        | 0x8000039c                    |         ";
  B "| 925        | 0x8000039d                    | DIP     | Dipper Network                    ";
  B "| 926        | 0x8000039e                    |         ";
  B "| 927        | 0x8000039f                    |         ";
  B "| 928        | 0x800003a0                    | GHM     | HermitMatrixNetwork               ";
  B "| 929        | 0x800003a1                    |         ";
  B "| 930        | 0x800003a2                    |         ";
  B "| 931        | 0x800003a3                    | RUNE    | THORChain (RUNE)                  ";
  B "| 932        | 0x800003a4                    |         ";
  B "| 933        | 0x800003a5                    |         ";
  B "| 934        | 0x800003a6                    |         ";
  B "| 935        | 0x800003a7                    |         ";
  B "| 936        | 0x800003a8                    |         ";
  B "| 937        | 0x800003a9                    |         ";
  B "| 938        | 0x800003aa                    |         ";
  B "| 939        | 0x800003ab                    |         ";
  B "| 940        | 0x800003ac                    |         ";
  B "| 941        | 0x800003ad                    | ---     | reserved                          ";
  B "| 942        | 0x800003ae                    |         ";
  B "| 943        | 0x800003af                    |         ";
  B "| 944        | 0x800003b0                    |         ";
  B "| 945        | 0x800003b1                    | UNLOCK  | Jasiri protocol                   ";
  B "| 946        | 0x800003b2                    |         ";
  B "| 947        | 0x800003b3                    |         ";
  B "| 948        | 0x800003b4                    |         ";
  B "| 949        | 0x800003b5                    |         ";
  B "| 950        | 0x800003b6                    |         ";
  B "| 951        | 0x800003b7                    |         ";
  B "| 952        | 0x800003b8                    |         ";
  B "| 953        | 0x800003b9                    |         ";
  B "| 954        | 0x800003ba                    |         ";
  B "| 955        | 0x800003bb                    | LTP     | LifetionCoin                      ";
  B "| 956        | 0x800003bc                    |         ";
  B "| 957        | 0x800003bd                    |         ";
  B "| 958        | 0x800003be                    |         | KickSoccer                        ";
  B "| 959        | 0x800003bf                    |         ";
  B "| 960        | 0x800003c0                    | VKAX    | Vkax                              ";
  B "| 961        | 0x800003c1                    |         ";
  B "| 962        | 0x800003c2                    |         ";
  B "| 963        | 0x800003c3                    |         ";
  B "| 964        | 0x800003c4                    |         ";
  B "| 965        | 0x800003c5                    |         ";
  B "| 966        | 0x800003c6                    | MATIC   | Matic                             ";
  B "| 967        | 0x800003c7                    |         ";
  B "| 968        | 0x800003c8                    | UNW     | UNW                               ";
  B "| 969        | 0x800003c9                    | QI      | Quai Network                      ";
  B "| 970        | 0x800003ca                    | TWINS   | TWINS                             ";
  B "| 971        | 0x800003cb                    |         ";
  B "| 972        | 0x800003cc                    |         ";
  B "| 973        | 0x800003cd                    |         ";
  B "| 974        | 0x800003ce                    |         ";
  B "| 975        | 0x800003cf                    |         ";
  B "| 976        | 0x800003d0                    |         ";
  B "| 977        | 0x800003d1                    | TLOS    | Telos                             ";
  B "| 978        | 0x800003d2                    |         ";
  B "| 979        | 0x800003d3                    |         ";
  B "| 980        | 0x800003d4                    |         ";
  B "| 981        | 0x800003d5                    | TAFECO  | Taf ECO Chain                     ";
  B "| 982        | 0x800003d6                    |         ";
  B "| 983        | 0x800003d7                    |         ";
  B "| 984        | 0x800003d8                    |         ";
  B "| 985        | 0x800003d9                    | AU      | Autonomy                          ";
  B "| 986        | 0x800003da                    |         ";
  B "| 987        | 0x800003db                    | VCG     | VipCoin                           ";
  B "| 988        | 0x800003dc                    | XAZAB   | Xazab core                        ";
  B "| 989        | 0x800003dd                    | AIOZ    | AIOZ                              ";
  B "| 990        | 0x800003de                    | CORE    | Coreum                            ";
  B "| 991        | 0x800003df                    | PEC     | Phoenix                           ";
  B "| 992        | 0x800003e0                    | UNT     | Unit                              ";
  B "| 993        | 0x800003e1                    | XRB     | X Currency                        ";
  B "| 994        | 0x800003e2                    | QUAI    | Quai Network                      ";
  B "| 995        | 0x800003e3                    | CAPS    | Ternoa                            ";
  B "| 996        | 0x800003e4                    | OKT     | OKChain Token                     ";
  B "| 997        | 0x800003e5                    | SUM     | Solidum                           ";
  B "| 998        | 0x800003e6                    | LBTC    | Lightning Bitcoin                 ";
  B "| 999        | 0x800003e7                    | BCD     | Bitcoin Diamond                   ";
  B "| 1000       | 0x800003e8                    | BTN     | Bitcoin New                       ";
  B "| 1001       | 0x800003e9                    | TT      | ThunderCore                       ";
  B "| 1002       | 0x800003ea                    | BKT     | BanKitt                           ";
  B "| 1003       | 0x800003eb                    | NODL    | Nodle                             ";
  B "| 1004       | 0x800003ec                    | PCOIN   | PCOIN                             ";
  B "| 1005       | 0x800003ed                    | TAO     | Bittensor                         ";
  B "| 1006       | 0x800003ee                    | HSK     | HashKey Chain                     ";
  B "| 1007       | 0x800003ef                    | FTM     | Fantom                            ";
  B "| 1008       | 0x800003f0                    | RPG     | RPG                               ";
  B "| 1009       | 0x800003f1                    | LAKE    | iconLake                          ";
  B "| 1010       | 0x800003f2                    | HT      | Huobi ECO Chain                   ";
  B "| 1011       | 0x800003f3                    | ELV     | Eluvio                            ";
  B "| 1012       | 0x800003f4                    | JOC     | Japan Open Chain                  ";
  B "| 1013       | 0x800003f5                    | BIC     | Beincrypto                        ";
  B "| 1016       | 0x800003f8                    | ---     | reserved                          ";
  B "| 1020       | 0x800003fc                    | EVC     | Evrice                            ";
  B "| 1022       | 0x800003fe                    | XRD     | Radix DLT                         ";
  B "| 1023       | 0x800003ff                    | ONE     | HARMONY-ONE (Legacy)              ";
  B "| 1024       | 0x80000400                    | ONT     | Ontology                          ";
  B "| 1025       | 0x80000401                    | CZZ     | Classzz                           ";
  B "| 1026       | 0x80000402                    | KEX     | Kira Exchange Token               ";
  B "| 1027       | 0x80000403                    | MCM     | Mochimo                           ";
  B "| 1028       | 0x80000404                    | PLS     | Pulse Coin                        ";
  B "| 1032       | 0x80000408                    | BTCR    | BTCR                              ";
  B "| 1042       | 0x80000412                    | MFID    | Moonfish ID                       ";
  B "| 1111       | 0x80000457                    | BBC     | Big Bitcoin                       ";
  B "| 1116       | 0x8000045c                    | CORE    | Core                              ";
  B "| 1120       | 0x80000460                    | RISE    | RISE                              ";
  B "| 1122       | 0x80000462                    | CMT     | CyberMiles Token                  ";
  B "| 1128       | 0x80000468                    | ETSC    | Ethereum Social                   ";
  B "| 1129       | 0x80000469                    | DFI     | DeFiChain                         ";
  B "| 1130       | 0x8000046a                    | DFI     | DeFiChain EVM Network             ";
  B "| 1137       | 0x80000471                    | $DAG    | Constellation Labs                ";
  B "| 1145       | 0x80000479                    | CDY     | Bitcoin Candy                     ";
  B "| 1155       | 0x80000483                    | ENJ     | Enjin Coin                        ";
  B "| 1170       | 0x80000492                    | HOO     | Hoo Smart Chain                   ";
  B "| 1234       | 0x800004d2                    | ALPH    | Alephium                          ";
  B "| 1236       | 0x800004d4                    |         | Masca                             ";
  B "| 1237       | 0x800004d5                    |         | Nostr                             ";
  B "| 1280       | 0x80000500                    |         | Kudos Setler                      ";
  B "| 1284       | 0x80000504                    | GLMR    | Moonbeam                          ";
  B "| 1285       | 0x80000505                    | MOVR    | Moonriver                         ";
  B "| 1298       | 0x80000512                    | WPC     | Wpc                               ";
  B "| 1308       | 0x8000051c                    | WEI     | WEI                               ";
  B "| 1337       | 0x80000539                    | DFC     | Defcoin                           ";
  B "| 1348       | 0x80000544                    | ISLM    | IslamicCoin                       ";
  B "| 1397       | 0x80000575                    | HYC     | Hycon                             ";
  B "| 1410       | 0x80000582                    | TENTSLP | TENT Simple Ledger Protocol       ";
  B "| 1510       | 0x800005e6                    | XSC     | XT Smart Chain                    ";
  B "| 1512       | 0x800005e8                    | AAC     | Double-A Chain                    ";
  B "| 1524       | 0x800005f4                    |         | Taler                             ";
  B "| 1533       | 0x800005fd                    | BEAM    | Beam                              ";
  B "| 1551       | 0x8000060f                    | SDK     | Sovereign SDK                     ";
  B "| 1555       | 0x80000613                    | APC     | Apc Chain                         ";
  B "| 1616       | 0x80000650                    | ELF     | AELF                              ";
  B "| 1618       | 0x80000652                    | AUDL    | AUDL                              ";
  B "| 1620       | 0x80000654                    | ATH     | Atheios                           ";
  B "| 1627       | 0x8000065b                    | LUME    | Lume Web                          ";
  B "| 1642       | 0x8000066a                    | NEW     | Newton                            ";
  B "| 1657       | 0x80000679                    | BTA     | Btachain                          ";
  B "| 1668       | 0x80000684                    | NEOX    | Neoxa                             ";
  B "| 1669       | 0x80000685                    | MEWC    | Meowcoin                          ";
  B "| 1688       | 0x80000698                    | BCX     | BitcoinX                          ";
  B "| 1729       | 0x800006c1                    | XTZ     | Tezos                             ";
  B "| 1776       | 0x800006f0                    | LBTC    | Liquid BTC                        ";
  B "| 1777       | 0x800006f1                    | BBP     | Biblepay                          ";
  B "| 1784       | 0x800006f8                    | JPYS    | JPY Stablecoin                    ";
  B "| 1789       | 0x800006fd                    | VEGA    | Vega Protocol                     ";
  B "| 1815       | 0x80000717                    | ADA     | Cardano                           ";
  B "| 1818       | 0x8000071a                    | CUBE    | Cube Chain Native Token           ";
  B "| 1856       | 0x80000743                    | TES     | Teslacoin                         ";
  B "| 1888       | 0x80000760                    | ZTX     | Zetrix                            ";
  B "| 1899       | 0x8000076b                    | XEC     | eCash token                       ";
  B "| 1901       | 0x8000076d                    | CLC     | Classica                          ";
  B "| 1907       | 0x80000773                    | BITCI   | Bitcicoin                         ";
  B "| 1919       | 0x8000077f                    | VIPS    | VIPSTARCOIN                       ";
  B "| 1926       | 0x80000786                    | CITY    | City Coin                         ";
  B "| 1955       | 0x800007a3                    | XX      | xx coin                           ";
  B "| 1977       | 0x800007b9                    | XMX     | Xuma                              ";
  B "| 1984       | 0x800007c0                    | TRTL    | TurtleCoin                        ";
  B "| 1985       | 0x800007c1                    | SLRT    | Solarti Chain                     ";
  B "| 1986       | 0x800007c2                    | QTH     | Qing Tong Horizon                 ";
  B "| 1987       | 0x800007c3                    | EGEM    | EtherGem                          ";
  B "| 1988       | 0x800007c4                    | MIRA    | Mira Chain                        ";
  B "| 1989       | 0x800007c5                    | HODL    | HOdlcoin                          ";
  B "| 1990       | 0x800007c6                    | PHL     | Placeholders                      ";
  B "| 1991       | 0x800007c7                    | SC      | Sia                               ";
  B "| 1996       | 0x800007cc                    | MYT     | Mineyourtime                      ";
  B "| 1997       | 0x800007cd                    | POLIS   | Polis                             ";
  B "| 1998       | 0x800007ce                    | XMCC    | Monoeci                           ";
  B "| 1999       | 0x800007cf                    | COLX    | ColossusXT                        ";
  B "| 2000       | 0x800007d0                    | GIN     | GinCoin                           ";
  B "| 2001       | 0x800007d1                    | MNP     | MNPCoin                           ";
  B "| 2002       | 0x800007d2                    | MLN     | Miraland                          ";
  B "| 2017       | 0x800007e1                    | KIN     | Kin                               ";
  B "| 2018       | 0x800007e2                    | EOSC    | EOSClassic                        ";
  B "| 2019       | 0x800007e3                    | GBT     | GoldBean Token                    ";
  B "| 2020       | 0x800007e4                    | PKC     | PKC                               ";
  B "| 2021       | 0x800007e5                    | SKT     | Sukhavati                         ";
  B "| 2024       | 0x800007e8                    | USBC    | Universal Ledger USBC             ";
  B "| 2022       | 0x800007e6                    | XHT     | Xinghuo Token                     ";
  B "| 2023       | 0x800007e7                    | COC     | Chat On Chain                     ";
  B "| 2046       | 0x800007fe                    | ANY     | Any                               ";
  B "| 2048       | 0x80000800                    | MCASH   | MCashChain                        ";
  B "| 2049       | 0x80000801                    | TRUE    | TrueChain                         ";
  B "| 2050       | 0x80000802                    | MOVO    | Movo Smart Chain                  ";
  B "| 2086       | 0x80000826                    | KILT    | KILT Spiritnet                    ";
  B "| 2109       | 0x8000083d                    | SAMA    | Exosama Network                   ";
  B "| 2112       | 0x80000840                    | IoTE    | IoTE                              ";
  B "| 2125       | 0x8000084d                    | BAY     | BitBay                            ";
  B "| 2137       | 0x80000859                    | XRG     | Ergon                             ";
  B "| 2182       | 0x80000888                    | CHZ     | Chiliz                            ";
  B "| 2199       | 0x80000897                    | SAMA    | Moonsama Network                  ";
  B "| 2221       | 0x800008ad                    | ASK     | ASK                               ";
  B "| 2222       | 0x800008ae                    | CWEB    | Coinweb                           ";
  B "| 2285       | 0x800008ed                    |         | Qiyi Chain                        ";
  B "| 2301       | 0x800008fd                    | QTUM    | QTUM                              ";
  B "| 2302       | 0x800008fe                    | ETP     | Metaverse                         ";
  B "| 2303       | 0x800008ff                    | GXC     | GXChain                           ";
  B "| 2304       | 0x80000900                    | CRP     | CranePay                          ";
  B "| 2305       | 0x80000901                    | ELA     | Elastos                           ";
  B "| 2338       | 0x80000922                    | SNOW    | Snowblossom                       ";
  B "| 2365       | 0x8000093d                    | XIN     | Mixin                             ";
  B "| 2500       | 0x800009c4                    | NEXI    | Nexi                              ";
  B "| 2570       | 0x80000a0a                    | AOA     | Aurora                            ";
  B "| 2718       | 0x80000a9e                    | NAS     | Nebulas                           ";
  B "| 2894       | 0x80000b4e                    | REOSC   | REOSC Ecosystem                   ";
  B "| 2941       | 0x80000b7d                    | BND     | Blocknode                         ";
  B "| 3000       | 0x80000bb8                    | SM      | Stealth Message                   ";
  B "| 3003       | 0x80000bbb                    | LUX     | LUX                               ";
  B "| 3030       | 0x80000bd6                    | HBAR    | Hedera HBAR                       ";
  B "| 3077       | 0x80000c05                    | COS     | Contentos                         ";
  B "| 3276       | 0x80000ccc                    | CCC     | CodeChain                         ";
  B "| 3333       | 0x80000d05                    | SXP     | Solar                             ";
  B "| 3377       | 0x80000d31                    | ROI     | ROIcoin                           ";
  B "| 3381       | 0x80000d35                    | DYN     | Dynamic                           ";
  B "| 3383       | 0x80000d37                    | SEQ     | Sequence                          ";
  B "| 3501       | 0x80000dad                    | JFIN    | JFIN Coin                         ";
  B "| 3552       | 0x80000de0                    | DEO     | Destocoin                         ";
  B "| 3564       | 0x80000dec                    | DST     | DeStream                          ";
  B "| 3601       | 0x80000e11                    | CY      | Cybits                            ";
  B "| 3757       | 0x80000ead                    | MPC     | Partisia Blockchain               ";
  B "| 4040       | 0x80000fc8                    | FC8     | FCH Network                       ";
  B "| 4096       | 0x80001000                    | YEE     | YeeCo                             ";
  B "| 4218       | 0x8000107a                    | IOTA    | IOTA                              ";
  B "| 4219       | 0x8000107b                    | SMR     | Shimmer                           ";
  B "| 4242       | 0x80001092                    | AXE     | Axe                               ";
  B "| 4343       | 0x800010f7                    | XYM     | Symbol                            ";
  B "| 4444       | 0x8000115c                    | C4E     | Chain4Energy                      ";
  B "| 4919       | 0x80001337                    | XVM     | Venidium                          ";
  B "| 4999       | 0x80001387                    | BXN     | BlackFort Exchange Network        ";
  B "| 5000       | 0x80001388                    | V12     | Vet The Vote                      ";
  B "| 5006       | 0x8000138e                    | SBC     | Senior Blockchain                 ";
  B "| 5248       | 0x80001480                    | FIC     | FIC                               ";
  B "| 5353       | 0x800014e9                    | HNS     | Handshake                         ";
  B "| 5404       | 0x8000151c                    | ISK     | ISKRA                             ";
  B "| 5467       | 0x8000155b                    | ALTME   | ALTME                             ";
  B "| 5555       | 0x800015b3                    | FUND    | Unification                       ";
  B "| 5757       | 0x8000167d                    | STX     | Stacks                            ";
  B "| 5895       | 0x80001707                    | VOW     | VowChain VOW                      ";
  B "| 5920       | 0x80001720                    | SLU     | SILUBIUM                          ";
  B "| 5995       | 0x8000176B                    | DUSK    | Dusk Network                      ";
  B "| 6060       | 0x800017ac                    | GO      | GoChain GO                        ";
  B "| 6144       | 0x80001800                    | DTS     | Datos                             ";
  B "| 6174       | 0x8000181e                    | MOI     | My Own Internet                   ";
  B "| 6278       | 0x80001886                    | STEAMX  | Rails Network Mainnet             ";
  B "| 6532       | 0x80001984                    | UM      | Penumbra                          ";
  B "| 6599       | 0x800019c7                    | RSC     | Royal Sports City                 ";
  B "| 6666       | 0x80001a0a                    | BPA     | Bitcoin Pizza                     ";
  B "| 6688       | 0x80001a20                    | SAFE    | SAFE                              ";
  B "| 6779       | 0x80001a7b                    | COTI    | COTI                              ";
  B "| 6969       | 0x80001b39                    | ROGER   | TheHolyrogerCoin                  ";
  B "| 7000       | 0x80001b58                    | ZETA    | ZetaChain                         ";
  B "| 7027       | 0x80001b73                    | ELLA    | Ella the heart                    ";
  B "| 7028       | 0x80001b74                    | AA      | Arthera                           ";
  B "| 7091       | 0x80001bb3                    | TOPL    | Topl                              ";
  B "| 7331       | 0x80001ca3                    | KLY     | KLYNTAR                           ";
  B "| 7341       | 0x80001cad                    | SHFT    | Shyft                             ";
  B "| 7518       | 0x80001d5e                    | MEV     | MEVerse                           ";
  B "| 7576       | 0x80001d98                    | ADIL    | ADIL Chain                        ";
  B "| 7777       | 0x80001e61                    | BTV     | Bitvote                           ";
  B "| 7779       | 0x80001e63                    | CPV     | Compverse                         ";
  B "| 8000       | 0x80001f40                    | SKY     | Skycoin                           ";
  B "| 8080       | 0x80001f90                    |         | DSRV                              ";
  B "| 8181       | 0x80001ff5                    | BOC     | BeOne Chain                       ";
  B "| 8192       | 0x80002000                    | PAC     | pacprotocol                       ";
  B "| 8217       | 0x80002019                    | KLAY    | KLAY                              ";
  B "| 8339       | 0x80002093                    | BTQ     | BitcoinQuark                      ";
  B "| 8444       | 0x800020fc                    | XCH     | Chia                              ";
  B "| 8520       | 0x80002148                    | ---     | reserved                          ";
  B "| 8680       | 0x800021e8                    | PLMNT   | Planetmint                        ";
  B "| 8866       | 0x800022a2                    | GGX     | Golden Gate                       ";
  B "| 8886       | 0x800022b6                    | GGXT    | Golden Gate Sydney                ";
  B "| 8888       | 0x800022b8                    | SBTC    | Super Bitcoin                     ";
  B "| 8964       | 0x80002304                    | NULS    | NULS                              ";
  B "| 8997       | 0x80002325                    | BBC     | Babacoin                          ";
  B "| 8998       | 0x80002326                    | JGC     | JagoanCoin                        ";
  B "| 8999       | 0x80002327                    | BTP     | Bitcoin Pay                       ";
  B "| 9000       | 0x80002328                    | AVAX    | Avalanche                         ";
  B "| 9001       | 0x80002329                    | ARB1    | Arbitrum                          ";
  B "| 9002       | 0x8000232a                    | BOBA    | Boba                              ";
  B "| 9003       | 0x8000232b                    | LOOP    | Loopring                          ";
  B "| 9004       | 0x8000232c                    | STRK    | StarkNet                          ";
  B "| 9005       | 0x8000232d                    | AVAXC   | Avalanche C-Chain                 ";
  B "| 9006       | 0x8000232e                    | BSC     | Binance Smart Chain               ";
  B "| 9797       | 0x80002645                    | NRG     | Energi                            ";
  B "| 9888       | 0x800026a0                    | BTF     | Bitcoin Faith                     ";
  B "| 9999       | 0x8000270f                    | GOD     | Bitcoin God                       ";
  B "| 10000      | 0x80002710                    | FO      | FIBOS                             ";
  B "| 10111      | 0x8000277f                    | DHP     | dHealth                           ";
  B "| 10226      | 0x800027f2                    | RTM     | Raptoreum                         ";
  B "| 10242      | 0x80002802                    | AA      | Arthera                           ";
  B "| 10291      | 0x80002833                    | XRC     | XRhodium                          ";
  B "| 10507      | 0x8000290b                    | NUM     | Numbers Protocol                  ";
  B "| 10605      | 0x8000296d                    | XPI     | Lotus                             ";
  B "| 11111      | 0x80002b67                    | ESS     | Essentia One                      ";
  B "| 11742      | 0x80002dde                    | VARCH   | InvArch                           ";
  B "| 11743      | 0x80002ddf                    | TNKR    | Tinkernet                         ";
  B "| 12345      | 0x80003039                    | IPOS    | IPOS                              ";
  B "| 12586      | 0x8000312a                    | MINA    | Mina                              ";
  B "| 13107      | 0x80003333                    | BTY     | BitYuan                           ";
  B "| 13108      | 0x80003334                    | YCC     | Yuan Chain Coin                   ";
  B "| 14001      | 0x800036b1                    | WAX     | Worldwide Asset Exchange          ";
  B "| 15845      | 0x80003de5                    | SDGO    | SanDeGo                           ";
  B "| 16181      | 0x80003f35                    | XTX     | Totem Live Network                ";
  B "| 16754      | 0x80004172                    | ARDR    | Ardor                             ";
  B "| 18000      | 0x80004650                    | MTR     | Meter                             ";
  B "| 19165      | 0x80004add                    | SAFE    | Safecoin                          ";
  B "| 19167      | 0x80004adf                    | FLUX    | Flux                              ";
  B "| 19169      | 0x80004ae1                    | RITO    | Ritocoin                          ";
  B "| 19788      | 0x80004d4c                    | ML      | Mintlayer                         ";
  B "| 20036      | 0x80004e44                    | XND     | ndau                              ";
  B "| 21004      | 0x8000520c                    | C4EI    | c4ei                              ";
  B "| 21888      | 0x80005580                    | PAC     | Pactus                            ";
  B "| 22504      | 0x800057e8                    | PWR     | PWRcoin                           ";
  B "| 23000      | 0x800059d8                    | EPIC    | Epic Cash                         ";
  B "| 25252      | 0x800062a4                    | BELL    | Bellcoin                          ";
  B "| 25718      | 0x80006476                    | CHX     | Own                               ";
  B "| 29223      | 0x80007227                    | NEXA    | Nexa                              ";
  B "| 30001      | 0x80007531                    | ---     | reserved                          ";
  B "| 31102      | 0x8000797e                    | ESN     | EtherSocial Network               ";
  B "| 31337      | 0x80007a69                    |         | ThePower                          ";
  B "| 33416      | 0x80008288                    | TEO     | Trust Eth reOrigin                ";
  B "| 33878      | 0x80008456                    | BTCS    | Bitcoin Stake                     ";
  B "| 34952      | 0x80008888                    | BTT     | ByteTrade                         ";
  B "| 37992      | 0x80009468                    | FXTC    | FixedTradeCoin                    ";
  B "| 39321      | 0x80009999                    | AMA     | Amabig                            ";
  B "| 42069      | 0x8000a455                    | FACT    | FACT0RN                           ";
  B "| 43028      | 0x8000a814                    | AXIV    | AXIV                              ";
  B "| 47803      | 0x8000babb                    | BAX     | BAX                               ";
  B "| 49262      | 0x8000c06e                    | EVE     | evan                              ";
  B "| 49344      | 0x8000c0c0                    | STASH   | STASH                             ";
  B "| 52752      | 0x8000ce10                    | CELO    | Celo                              ";
  B "| 61616      | 0x8000f0b0                    | TH      | TianHe                            ";
  B "| 65536      | 0x80010000                    | KETH    | Krypton World                     ";
  B "| 69420      | 0x80010f2c                    | GRLC    | Garlicoin                         ";
  B "| 70007      | 0x80011177                    | GWL     | Gewel                             ";
  B "| 77777      | 0x80012fd1                    | ZYN     | Wethio                            ";
  B "| 88888      | 0x80015b38                    | RYO     | c0ban                             ";
  B "| 99999      | 0x8001869f                    | WICC    | Waykichain                        ";
  B "| 100500     | 0x80018894                    | HOME    | HomeCoin                          ";
  B "| 101010     | 0x80018a92                    | STC     | Starcoin                          ";
  B "| 105105     | 0x80019a91                    | STRAX   | Strax                             ";
  B "| 111111     | 0x8001b207                    | KAS     | Kaspa                             ";
  B "| 161803     | 0x8002780b                    | APTA    | Bloqs4Good                        ";
  B "| 200625     | 0x80030fb1                    | AKA     | Akroma                            ";
  B "| 200665     | 0x80011000                    | GENOM   | GENOM                             ";
  B "| 224433     | 0x80036cb1                    | CONET   | CONET Holesky Network             ";
  B "| 246529     | 0x8003c301                    | ATS     | ARTIS sigma1                      ";
  B "| 261131     | 0x8003fc0b                    | ZAMA    | Zama                              ";
  B "| 314159     | 0x8004cb2f                    | PI      | Pi Network                        ";
  B "| 333332     | 0x80051614                    | VALUE   | Value Chain                       ";
  B "| 333333     | 0x80051615                    | 3333    | Pi Value Consensus                ";
  B "| 424242     | 0x80067932                    | X42     | x42                               ";
  B "| 534352     | 0x80082750                    | SCR     | Scroll                            ";
  B "| 666666     | 0x800a2c2a                    | VITE    | Vite                              ";
  B "| 888888     | 0x800d9038                    | SEA     | Second Exchange Alliance          ";
  B "| 999999     | 0x800c9061                    | WTC     | WaltonChain                       ";
  B "| 1048576    | 0x80100000                    | AMAX    | Armonia Meta Chain                ";
  B "| 1171337    | 0x8011df89                    | ILT     | iOlite                            ";
  B "| 1313114    | 0x8014095a                    | ETHO    | Etho Protocol                     ";
  B "| 1313500    | 0x80140adc                    | XERO    | Xerom                             ";
  B "| 1712144    | 0x801a2010                    | LAX     | LAPO                              ";
  B "| 3924011    | 0x803be02b                    | EPK     | EPIK Protocol                     ";
  B "| 4741444    | 0x80485944                    | HYD     | Hydra Token                       ";
  B "| 5249353    | 0x80501949                    | BCO     | BitcoinOre                        ";
  B "| 5249354    | 0x8050194a                    | BHD     | BitcoinHD                         ";
  B "| 5264462    | 0x8050544e                    | PTN     | PalletOne                         ";
  B "| 5655640    | 0x80564c58                    | VLX     | Velas                             ";
  B "| 5718350    | 0x8057414e                    | WAN     | Wanchain                          ";
  B "| 5741564    | 0x80579bfc                    | WAVES   | Waves                             ";
  B "| 5741565    | 0x80579bfd                    | WEST    | Waves Enterprise                  ";
  B "| 6382179    | 0x80616263                    | ABC     | Abcmint                           ";
  B "| 6517357    | 0x8063726d                    | CRM     | Creamcoin                         ";
  B "| 7171666    | 0x806d6e52                    | BROCK   | Bitrock                           ";
  B "| 7562605    | 0x8073656d                    | SEM     | Semux                             ";
  B "| 7567736    | 0x80737978                    | ION     | ION                               ";
  B "| 7777777    | 0x8076adf1                    | FCT     | FirmaChain                        ";
  B "| 7825266    | 0x80776772                    | WGR     | WGR                               ";
  B "| 7825267    | 0x80776773                    | OBSR    | OBServer                          ";
  B "| 8163271    | 0x807c8fc7                    | AFS     | ANFS                              ";
  B "| 15118976   | 0x80e6b280                    | XDS     | XDS                               ";
  B "| 61717561   | 0x83adbc39                    | AQUA    | Aquachain                         ";
  B "| 88888888   | 0x854c5638                    | HATCH   | Hatch                             ";
  B "| 91927009   | 0x857ab1e1                    | kUSD    | kUSD                              ";
  B "| 99999996   | 0x85f5e0fc                    | GENS    | GENS                              ";
  B "| 99999997   | 0x85f5e0fd                    | EQ      | EQ                                ";
  B "| 99999998   | 0x85f5e0fe                    | FLUID   | Fluid Chains                      ";
  B "| 99999999   | 0x85f5e0ff                    | QKC     | QuarkChain                        ";
  B "| 11259375   | 0x80abcdef                    | LBR     | 0L                                ";
  B "| 608589380  | 0xa4465644                    | FVDC    | ForumCoin                         ";
  B "| 1179993420 | 0xc655454c                    |         | Fuel                              "
].
(** The embedded file: every line ends in a newline. bip44/script.go:11-13, 25-29. *)
Definition slip44_md : bytes := flat_map (fun l => l ++ [x0a]) slip44_lines.
