(** Bip44Coins.v - the coin table, bip44/coins.go:12-1149, in the order of the source. *)
From Verif Require Import Base Bip44.

(** The value of RegCoins before init: bip44/coins.go:12-1149. *)
Definition RegCoins0 : list Coin := [
  mkCoin 0 0x80000000 (B "BTC") (B "Bitcoin");
  mkCoin 1 0x80000001 (B "") (B "Testnet (all coins)");
  mkCoin 2 0x80000002 (B "LTC") (B "Litecoin");
  mkCoin 3 0x80000003 (B "DOGE") (B "Dogecoin");
  mkCoin 4 0x80000004 (B "RDD") (B "Reddcoin");
  mkCoin 5 0x80000005 (B "DASH") (B "Dash");
  mkCoin 6 0x80000006 (B "PPC") (B "Peercoin");
  mkCoin 7 0x80000007 (B "NMC") (B "Namecoin");
  mkCoin 8 0x80000008 (B "FTC") (B "Feathercoin");
  mkCoin 9 0x80000009 (B "XCP") (B "Counterparty");
  mkCoin 10 0x8000000a (B "BLK") (B "Blackcoin");
  mkCoin 11 0x8000000b (B "NSR") (B "NuShares");
  mkCoin 12 0x8000000c (B "NBT") (B "NuBits");
  mkCoin 13 0x8000000d (B "MZC") (B "Mazacoin");
  mkCoin 14 0x8000000e (B "VIA") (B "Viacoin");
  mkCoin 15 0x8000000f (B "XCH") (B "ClearingHouse");
  mkCoin 16 0x80000010 (B "RBY") (B "Rubycoin");
  mkCoin 17 0x80000011 (B "GRS") (B "Groestlcoin");
  mkCoin 18 0x80000012 (B "DGC") (B "Digitalcoin");
  mkCoin 19 0x80000013 (B "CCN") (B "Cannacoin");
  mkCoin 20 0x80000014 (B "DGB") (B "DigiByte");
  mkCoin 21 0x80000015 (B "") (B "Open Assets");
  mkCoin 22 0x80000016 (B "MONA") (B "Monacoin");
  mkCoin 23 0x80000017 (B "CLAM") (B "Clams");
  mkCoin 24 0x80000018 (B "XPM") (B "Primecoin");
  mkCoin 25 0x80000019 (B "NEOS") (B "Neoscoin");
  mkCoin 26 0x8000001a (B "JBS") (B "Jumbucks");
  mkCoin 27 0x8000001b (B "ZRC") (B "ziftrCOIN");
  mkCoin 28 0x8000001c (B "VTC") (B "Vertcoin");
  mkCoin 29 0x8000001d (B "NXT") (B "NXT");
  mkCoin 30 0x8000001e (B "BURST") (B "Burst");
  mkCoin 31 0x8000001f (B "MUE") (B "MonetaryUnit");
  mkCoin 32 0x80000020 (B "ZOOM") (B "Zoom");
  mkCoin 33 0x80000021 (B "VASH") (B "Virtual Cash");
  mkCoin 34 0x80000022 (B "CDN") (B "Canada eCoin");
  mkCoin 35 0x80000023 (B "SDC") (B "ShadowCash");
  mkCoin 36 0x80000024 (B "PKB") (B "ParkByte");
  mkCoin 37 0x80000025 (B "PND") (B "Pandacoin");
  mkCoin 38 0x80000026 (B "START") (B "StartCOIN");
  mkCoin 39 0x80000027 (B "MOIN") (B "MOIN");
  mkCoin 40 0x80000028 (B "EXP") (B "Expanse");
  mkCoin 41 0x80000029 (B "EMC2") (B "Einsteinium");
  mkCoin 42 0x8000002a (B "DCR") (B "Decred");
  mkCoin 43 0x8000002b (B "XEM") (B "NEM");
  mkCoin 44 0x8000002c (B "PART") (B "Particl");
  mkCoin 45 0x8000002d (B "ARG") (B "Argentum (dead)");
  mkCoin 46 0x8000002e (B "") (B "Libertas");
  mkCoin 47 0x8000002f (B "") (B "Posw coin");
  mkCoin 48 0x80000030 (B "SHR") (B "Shreeji");
  mkCoin 49 0x80000031 (B "GCR") (B "Global Currency Reserve (GCRcoin)");
  mkCoin 50 0x80000032 (B "NVC") (B "Novacoin");
  mkCoin 51 0x80000033 (B "AC") (B "Asiacoin");
  mkCoin 52 0x80000034 (B "BTCD") (B "BitcoinDark");
  mkCoin 53 0x80000035 (B "DOPE") (B "Dopecoin");
  mkCoin 54 0x80000036 (B "TPC") (B "Templecoin");
  mkCoin 55 0x80000037 (B "AIB") (B "AIB");
  mkCoin 56 0x80000038 (B "EDRC") (B "EDRCoin");
  mkCoin 57 0x80000039 (B "SYS") (B "Syscoin");
  mkCoin 58 0x8000003a (B "SLR") (B "Solarcoin");
  mkCoin 59 0x8000003b (B "SMLY") (B "Smileycoin");
  mkCoin 60 0x8000003c (B "ETH") (B "Ether");
  mkCoin 61 0x8000003d (B "ETC") (B "Ether Classic");
  mkCoin 62 0x8000003e (B "PSB") (B "Pesobit");
  mkCoin 63 0x8000003f (B "LDCN") (B "Landcoin (dead)");
  mkCoin 64 0x80000040 (B "") (B "Open Chain");
  mkCoin 65 0x80000041 (B "XBC") (B "Bitcoinplus");
  mkCoin 66 0x80000042 (B "IOP") (B "Internet of People");
  mkCoin 67 0x80000043 (B "NXS") (B "Nexus");
  mkCoin 68 0x80000044 (B "INSN") (B "InsaneCoin");
  mkCoin 69 0x80000045 (B "OK") (B "OKCash");
  mkCoin 70 0x80000046 (B "BRIT") (B "BritCoin");
  mkCoin 71 0x80000047 (B "CMP") (B "Compcoin");
  mkCoin 72 0x80000048 (B "CRW") (B "Crown");
  mkCoin 73 0x80000049 (B "BELA") (B "BelaCoin");
  mkCoin 74 0x8000004a (B "ICX") (B "ICON");
  mkCoin 75 0x8000004b (B "FJC") (B "FujiCoin");
  mkCoin 76 0x8000004c (B "MIX") (B "MIX");
  mkCoin 77 0x8000004d (B "XVG") (B "Verge Currency");
  mkCoin 78 0x8000004e (B "EFL") (B "Electronic Gulden");
  mkCoin 79 0x8000004f (B "CLUB") (B "ClubCoin");
  mkCoin 80 0x80000050 (B "RICHX") (B "RichCoin");
  mkCoin 81 0x80000051 (B "POT") (B "Potcoin");
  mkCoin 82 0x80000052 (B "QRK") (B "Quarkcoin");
  mkCoin 83 0x80000053 (B "TRC") (B "Terracoin");
  mkCoin 84 0x80000054 (B "GRC") (B "Gridcoin");
  mkCoin 85 0x80000055 (B "AUR") (B "Auroracoin");
  mkCoin 86 0x80000056 (B "IXC") (B "IXCoin");
  mkCoin 87 0x80000057 (B "NLG") (B "Gulden");
  mkCoin 88 0x80000058 (B "BITB") (B "BitBean");
  mkCoin 89 0x80000059 (B "BTA") (B "Bata");
  mkCoin 90 0x8000005a (B "XMY") (B "Myriadcoin");
  mkCoin 91 0x8000005b (B "BSD") (B "BitSend");
  mkCoin 92 0x8000005c (B "UNO") (B "Unobtanium");
  mkCoin 93 0x8000005d (B "MTR") (B "MasterTrader");
  mkCoin 94 0x8000005e (B "GB") (B "GoldBlocks");
  mkCoin 95 0x8000005f (B "SHM") (B "Saham");
  mkCoin 96 0x80000060 (B "CRX") (B "Chronos");
  mkCoin 97 0x80000061 (B "BIQ") (B "Ubiquoin");
  mkCoin 98 0x80000062 (B "EVO") (B "Evotion");
  mkCoin 99 0x80000063 (B "STO") (B "SaveTheOcean");
  mkCoin 100 0x80000064 (B "BIGUP") (B "BigUp");
  mkCoin 101 0x80000065 (B "GAME") (B "GameCredits");
  mkCoin 102 0x80000066 (B "DLC") (B "Dollarcoins");
  mkCoin 103 0x80000067 (B "ZYD") (B "Zayedcoin");
  mkCoin 104 0x80000068 (B "DBIC") (B "Dubaicoin");
  mkCoin 105 0x80000069 (B "STRAT") (B "Stratis");
  mkCoin 106 0x8000006a (B "SH") (B "Shilling");
  mkCoin 107 0x8000006b (B "MARS") (B "MarsCoin");
  mkCoin 108 0x8000006c (B "UBQ") (B "Ubiq");
  mkCoin 109 0x8000006d (B "PTC") (B "Pesetacoin");
  mkCoin 110 0x8000006e (B "NRO") (B "Neurocoin");
  mkCoin 111 0x8000006f (B "ARK") (B "ARK");
  mkCoin 112 0x80000070 (B "USC") (B "UltimateSecureCashMain");
  mkCoin 113 0x80000071 (B "THC") (B "Hempcoin");
  mkCoin 114 0x80000072 (B "LINX") (B "Linx");
  mkCoin 115 0x80000073 (B "ECN") (B "Ecoin");
  mkCoin 116 0x80000074 (B "DNR") (B "Denarius");
  mkCoin 117 0x80000075 (B "PINK") (B "Pinkcoin");
  mkCoin 118 0x80000076 (B "ATOM") (B "Atom");
  mkCoin 119 0x80000077 (B "PIVX") (B "Pivx");
  mkCoin 120 0x80000078 (B "FLASH") (B "Flashcoin");
  mkCoin 121 0x80000079 (B "ZEN") (B "Zencash");
  mkCoin 122 0x8000007a (B "PUT") (B "Putincoin");
  mkCoin 123 0x8000007b (B "ZNY") (B "BitZeny");
  mkCoin 124 0x8000007c (B "UNIFY") (B "Unify");
  mkCoin 125 0x8000007d (B "XST") (B "StealthCoin");
  mkCoin 126 0x8000007e (B "BRK") (B "Breakout Coin");
  mkCoin 127 0x8000007f (B "VC") (B "Vcash");
  mkCoin 128 0x80000080 (B "XMR") (B "Monero");
  mkCoin 129 0x80000081 (B "VOX") (B "Voxels");
  mkCoin 130 0x80000082 (B "NAV") (B "NavCoin");
  mkCoin 131 0x80000083 (B "FCT") (B "Factom Factoids");
  mkCoin 132 0x80000084 (B "EC") (B "Factom Entry Credits");
  mkCoin 133 0x80000085 (B "ZEC") (B "Zcash");
  mkCoin 134 0x80000086 (B "LSK") (B "Lisk");
  mkCoin 135 0x80000087 (B "STEEM") (B "Steem");
  mkCoin 136 0x80000088 (B "XZC") (B "ZCoin");
  mkCoin 137 0x80000089 (B "RBTC") (B "RSK");
  mkCoin 138 0x8000008a (B "") (B "Giftblock");
  mkCoin 139 0x8000008b (B "RPT") (B "RealPointCoin");
  mkCoin 140 0x8000008c (B "LBC") (B "LBRY Credits");
  mkCoin 141 0x8000008d (B "KMD") (B "Komodo");
  mkCoin 142 0x8000008e (B "BSQ") (B "bisq Token");
  mkCoin 143 0x8000008f (B "RIC") (B "Riecoin");
  mkCoin 144 0x80000090 (B "XRP") (B "Ripple");
  mkCoin 145 0x80000091 (B "BCH") (B "Bitcoin Cash");
  mkCoin 146 0x80000092 (B "NEBL") (B "Neblio");
  mkCoin 147 0x80000093 (B "ZCL") (B "ZClassic");
  mkCoin 148 0x80000094 (B "XLM") (B "Stellar Lumens");
  mkCoin 149 0x80000095 (B "NLC2") (B "NoLimitCoin2");
  mkCoin 150 0x80000096 (B "WHL") (B "WhaleCoin");
  mkCoin 151 0x80000097 (B "ERC") (B "EuropeCoin");
  mkCoin 152 0x80000098 (B "DMD") (B "Diamond");
  mkCoin 153 0x80000099 (B "BTM") (B "Bytom");
  mkCoin 154 0x8000009a (B "BIO") (B "Biocoin");
  mkCoin 155 0x8000009b (B "XWCC") (B "Whitecoin Classic");
  mkCoin 156 0x8000009c (B "BTG") (B "Bitcoin Gold");
  mkCoin 157 0x8000009d (B "BTC2X") (B "Bitcoin 2x");
  mkCoin 158 0x8000009e (B "SSN") (B "SuperSkynet");
  mkCoin 159 0x8000009f (B "TOA") (B "TOACoin");
  mkCoin 160 0x800000a0 (B "BTX") (B "Bitcore");
  mkCoin 161 0x800000a1 (B "ACC") (B "Adcoin");
  mkCoin 162 0x800000a2 (B "BCO") (B "Bridgecoin");
  mkCoin 163 0x800000a3 (B "ELLA") (B "Ellaism");
  mkCoin 164 0x800000a4 (B "PIRL") (B "Pirl");
  mkCoin 165 0x800000a5 (B "XNO") (B "Nano");
  mkCoin 166 0x800000a6 (B "VIVO") (B "Vivo");
  mkCoin 167 0x800000a7 (B "FRST") (B "Firstcoin");
  mkCoin 168 0x800000a8 (B "HNC") (B "Helleniccoin");
  mkCoin 169 0x800000a9 (B "BUZZ") (B "BUZZ");
  mkCoin 170 0x800000aa (B "MBRS") (B "Ember");
  mkCoin 171 0x800000ab (B "HC") (B "Hcash");
  mkCoin 172 0x800000ac (B "HTML") (B "HTMLCOIN");
  mkCoin 173 0x800000ad (B "ODN") (B "Obsidian");
  mkCoin 174 0x800000ae (B "ONX") (B "OnixCoin");
  mkCoin 175 0x800000af (B "RVN") (B "Ravencoin");
  mkCoin 176 0x800000b0 (B "GBX") (B "GoByte");
  mkCoin 177 0x800000b1 (B "BTCZ") (B "BitcoinZ");
  mkCoin 178 0x800000b2 (B "POA") (B "Poa");
  mkCoin 179 0x800000b3 (B "NYC") (B "NewYorkCoin");
  mkCoin 180 0x800000b4 (B "MXT") (B "MarteXcoin");
  mkCoin 181 0x800000b5 (B "WC") (B "Wincoin");
  mkCoin 182 0x800000b6 (B "MNX") (B "Minexcoin");
  mkCoin 183 0x800000b7 (B "BTCP") (B "Bitcoin Private");
  mkCoin 184 0x800000b8 (B "MUSIC") (B "Musicoin");
  mkCoin 185 0x800000b9 (B "BCA") (B "Bitcoin Atom");
  mkCoin 186 0x800000ba (B "CRAVE") (B "Crave");
  mkCoin 187 0x800000bb (B "STAK") (B "STRAKS");
  mkCoin 188 0x800000bc (B "WBTC") (B "World Bitcoin");
  mkCoin 189 0x800000bd (B "LCH") (B "LiteCash");
  mkCoin 190 0x800000be (B "EXCL") (B "ExclusiveCoin");
  mkCoin 191 0x800000bf (B "") (B "Lynx");
  mkCoin 192 0x800000c0 (B "LCC") (B "LitecoinCash");
  mkCoin 193 0x800000c1 (B "XFE") (B "Feirm");
  mkCoin 194 0x800000c2 (B "EOS") (B "EOS");
  mkCoin 195 0x800000c3 (B "TRX") (B "Tron");
  mkCoin 196 0x800000c4 (B "KOBO") (B "Kobocoin");
  mkCoin 197 0x800000c5 (B "HUSH") (B "HUSH");
  mkCoin 198 0x800000c6 (B "BAN") (B "Banano");
  mkCoin 199 0x800000c7 (B "ETF") (B "ETF");
  mkCoin 200 0x800000c8 (B "OMNI") (B "Omni");
  mkCoin 201 0x800000c9 (B "BIFI") (B "BitcoinFile");
  mkCoin 202 0x800000ca (B "UFO") (B "Uniform Fiscal Object");
  mkCoin 203 0x800000cb (B "CNMC") (B "Cryptonodes");
  mkCoin 204 0x800000cc (B "BCN") (B "Bytecoin");
  mkCoin 205 0x800000cd (B "RIN") (B "Ringo");
  mkCoin 206 0x800000ce (B "ATP") (B "Alaya");
  mkCoin 207 0x800000cf (B "EVT") (B "everiToken");
  mkCoin 208 0x800000d0 (B "ATN") (B "ATN");
  mkCoin 209 0x800000d1 (B "BIS") (B "Bismuth");
  mkCoin 210 0x800000d2 (B "NEET") (B "NEETCOIN");
  mkCoin 211 0x800000d3 (B "BOPO") (B "BopoChain");
  mkCoin 212 0x800000d4 (B "OOT") (B "Utrum");
  mkCoin 213 0x800000d5 (B "ALIAS") (B "Alias");
  mkCoin 214 0x800000d6 (B "MONK") (B "Monkey Project");
  mkCoin 215 0x800000d7 (B "BOXY") (B "BoxyCoin");
  mkCoin 216 0x800000d8 (B "FLO") (B "Flo");
  mkCoin 217 0x800000d9 (B "MEC") (B "Megacoin");
  mkCoin 218 0x800000da (B "BTDX") (B "BitCloud");
  mkCoin 219 0x800000db (B "XAX") (B "Artax");
  mkCoin 220 0x800000dc (B "ANON") (B "ANON");
  mkCoin 221 0x800000dd (B "LTZ") (B "LitecoinZ");
  mkCoin 222 0x800000de (B "BITG") (B "Bitcoin Green");
  mkCoin 223 0x800000df (B "ICP") (B "Internet Computer (DFINITY)");
  mkCoin 224 0x800000e0 (B "SMART") (B "Smartcash");
  mkCoin 225 0x800000e1 (B "XUEZ") (B "XUEZ");
  mkCoin 226 0x800000e2 (B "HLM") (B "Helium");
  mkCoin 227 0x800000e3 (B "WEB") (B "Webchain");
  mkCoin 228 0x800000e4 (B "ACM") (B "Actinium");
  mkCoin 229 0x800000e5 (B "NOS") (B "NOS Stable Coins");
  mkCoin 230 0x800000e6 (B "BITC") (B "BitCash");
  mkCoin 231 0x800000e7 (B "HTH") (B "Help The Homeless Coin");
  mkCoin 232 0x800000e8 (B "TZC") (B "Trezarcoin");
  mkCoin 233 0x800000e9 (B "VAR") (B "Varda");
  mkCoin 234 0x800000ea (B "IOV") (B "IOV");
  mkCoin 235 0x800000eb (B "FIO") (B "FIO");
  mkCoin 236 0x800000ec (B "BSV") (B "BitcoinSV");
  mkCoin 237 0x800000ed (B "DXN") (B "DEXON");
  mkCoin 238 0x800000ee (B "QRL") (B "Quantum Resistant Ledger");
  mkCoin 239 0x800000ef (B "PCX") (B "ChainX");
  mkCoin 240 0x800000f0 (B "LOKI") (B "Loki");
  mkCoin 241 0x800000f1 (B "") (B "Imagewallet");
  mkCoin 242 0x800000f2 (B "NIM") (B "Nimiq");
  mkCoin 243 0x800000f3 (B "SOV") (B "Sovereign Coin");
  mkCoin 244 0x800000f4 (B "JCT") (B "Jibital Coin");
  mkCoin 245 0x800000f5 (B "SLP") (B "Simple Ledger Protocol");
  mkCoin 246 0x800000f6 (B "EWT") (B "Energy Web");
  mkCoin 247 0x800000f7 (B "UC") (B "Ulord");
  mkCoin 248 0x800000f8 (B "EXOS") (B "EXOS");
  mkCoin 249 0x800000f9 (B "ECA") (B "Electra");
  mkCoin 250 0x800000fa (B "SOOM") (B "Soom");
  mkCoin 251 0x800000fb (B "XRD") (B "Redstone");
  mkCoin 252 0x800000fc (B "FREE") (B "FreeCoin");
  mkCoin 253 0x800000fd (B "NPW") (B "NewPowerCoin");
  mkCoin 254 0x800000fe (B "BST") (B "BlockStamp");
  mkCoin 255 0x800000ff (B "") (B "SmartHoldem");
  mkCoin 256 0x80000100 (B "NANO") (B "Bitcoin Nano");
  mkCoin 257 0x80000101 (B "BTCC") (B "Bitcoin Core");
  mkCoin 258 0x80000102 (B "") (B "Zen Protocol");
  mkCoin 259 0x80000103 (B "ZEST") (B "Zest");
  mkCoin 260 0x80000104 (B "ABT") (B "ArcBlock");
  mkCoin 261 0x80000105 (B "PION") (B "Pion");
  mkCoin 262 0x80000106 (B "DT3") (B "DreamTeam3");
  mkCoin 263 0x80000107 (B "ZBUX") (B "Zbux");
  mkCoin 264 0x80000108 (B "KPL") (B "Kepler");
  mkCoin 265 0x80000109 (B "TPAY") (B "TokenPay");
  mkCoin 266 0x8000010a (B "ZILLA") (B "ChainZilla");
  mkCoin 267 0x8000010b (B "ANK") (B "Anker");
  mkCoin 268 0x8000010c (B "BCC") (B "BCChain");
  mkCoin 269 0x8000010d (B "HPB") (B "HPB");
  mkCoin 270 0x8000010e (B "ONE") (B "ONE");
  mkCoin 271 0x8000010f (B "SBC") (B "SBC");
  mkCoin 272 0x80000110 (B "IPC") (B "IPChain");
  mkCoin 273 0x80000111 (B "DMTC") (B "Dominantchain");
  mkCoin 274 0x80000112 (B "OGC") (B "Onegram");
  mkCoin 275 0x80000113 (B "SHIT") (B "Shitcoin");
  mkCoin 276 0x80000114 (B "ANDES") (B "Andescoin");
  mkCoin 277 0x80000115 (B "AREPA") (B "Arepacoin");
  mkCoin 278 0x80000116 (B "BOLI") (B "Bolivarcoin");
  mkCoin 279 0x80000117 (B "RIL") (B "Rilcoin");
  mkCoin 280 0x80000118 (B "HTR") (B "Hathor Network");
  mkCoin 281 0x80000119 (B "ACME") (B "Accumulate");
  mkCoin 282 0x8000011a (B "BRAVO") (B "BRAVO");
  mkCoin 283 0x8000011b (B "ALGO") (B "Algorand");
  mkCoin 284 0x8000011c (B "BZX") (B "Bitcoinzero");
  mkCoin 285 0x8000011d (B "GXX") (B "GravityCoin");
  mkCoin 286 0x8000011e (B "HEAT") (B "HEAT");
  mkCoin 287 0x8000011f (B "XDN") (B "DigitalNote");
  mkCoin 288 0x80000120 (B "FSN") (B "FUSION");
  mkCoin 289 0x80000121 (B "CPC") (B "Capricoin");
  mkCoin 290 0x80000122 (B "BOLD") (B "Bold");
  mkCoin 291 0x80000123 (B "IOST") (B "IOST");
  mkCoin 292 0x80000124 (B "TKEY") (B "Tkeycoin");
  mkCoin 293 0x80000125 (B "USE") (B "Usechain");
  mkCoin 294 0x80000126 (B "BCZ") (B "BitcoinCZ");
  mkCoin 295 0x80000127 (B "IOC") (B "Iocoin");
  mkCoin 296 0x80000128 (B "ASF") (B "Asofe");
  mkCoin 297 0x80000129 (B "MASS") (B "MASS");
  mkCoin 298 0x8000012a (B "FAIR") (B "FairCoin");
  mkCoin 299 0x8000012b (B "NUKO") (B "Nekonium");
  mkCoin 300 0x8000012c (B "GNX") (B "Genaro Network");
  mkCoin 301 0x8000012d (B "DIVI") (B "Divi Project");
  mkCoin 302 0x8000012e (B "CMT") (B "Community");
  mkCoin 303 0x8000012f (B "EUNO") (B "EUNO");
  mkCoin 304 0x80000130 (B "IOTX") (B "IoTeX");
  mkCoin 305 0x80000131 (B "ONION") (B "DeepOnion");
  mkCoin 306 0x80000132 (B "8BIT") (B "8Bit");
  mkCoin 307 0x80000133 (B "ATC") (B "AToken Coin");
  mkCoin 308 0x80000134 (B "BTS") (B "Bitshares");
  mkCoin 309 0x80000135 (B "CKB") (B "Nervos CKB");
  mkCoin 310 0x80000136 (B "UGAS") (B "Ultrain");
  mkCoin 311 0x80000137 (B "ADS") (B "Adshares");
  mkCoin 312 0x80000138 (B "ARA") (B "Aura");
  mkCoin 313 0x80000139 (B "ZIL") (B "Zilliqa");
  mkCoin 314 0x8000013a (B "MOAC") (B "MOAC");
  mkCoin 315 0x8000013b (B "SWTC") (B "SWTC");
  mkCoin 316 0x8000013c (B "VNSC") (B "vnscoin");
  mkCoin 317 0x8000013d (B "PLUG") (B "Pl^g");
  mkCoin 318 0x8000013e (B "MAN") (B "Matrix AI Network");
  mkCoin 319 0x8000013f (B "ECC") (B "ECCoin");
  mkCoin 320 0x80000140 (B "RPD") (B "Rapids");
  mkCoin 321 0x80000141 (B "RAP") (B "Rapture");
  mkCoin 322 0x80000142 (B "GARD") (B "Hashgard");
  mkCoin 323 0x80000143 (B "ZER") (B "Zero");
  mkCoin 324 0x80000144 (B "EBST") (B "eBoost");
  mkCoin 325 0x80000145 (B "SHARD") (B "Shard");
  mkCoin 326 0x80000146 (B "MRX") (B "Metrix Coin");
  mkCoin 327 0x80000147 (B "CMM") (B "Commercium");
  mkCoin 328 0x80000148 (B "BLOCK") (B "Blocknet");
  mkCoin 329 0x80000149 (B "AUDAX") (B "AUDAX");
  mkCoin 330 0x8000014a (B "LUNA") (B "Terra");
  mkCoin 331 0x8000014b (B "ZPM") (B "zPrime");
  mkCoin 332 0x8000014c (B "KUVA") (B "Kuva Utility Note");
  mkCoin 333 0x8000014d (B "MEM") (B "MemCoin");
  mkCoin 334 0x8000014e (B "CS") (B "Credits");
  mkCoin 335 0x8000014f (B "SWIFT") (B "SwiftCash");
  mkCoin 336 0x80000150 (B "FIX") (B "FIX");
  mkCoin 337 0x80000151 (B "CPC") (B "CPChain");
  mkCoin 338 0x80000152 (B "VGO") (B "VirtualGoodsToken");
  mkCoin 339 0x80000153 (B "DVT") (B "DeVault");
  mkCoin 340 0x80000154 (B "N8V") (B "N8VCoin");
  mkCoin 341 0x80000155 (B "MTNS") (B "OmotenashiCoin");
  mkCoin 342 0x80000156 (B "BLAST") (B "BLAST");
  mkCoin 343 0x80000157 (B "DCT") (B "DECENT");
  mkCoin 344 0x80000158 (B "AUX") (B "Auxilium");
  mkCoin 345 0x80000159 (B "USDP") (B "USDP");
  mkCoin 346 0x8000015a (B "HTDF") (B "HTDF");
  mkCoin 347 0x8000015b (B "YEC") (B "Ycash");
  mkCoin 348 0x8000015c (B "QLC") (B "QLC Chain");
  mkCoin 349 0x8000015d (B "TEA") (B "Icetea Blockchain");
  mkCoin 350 0x8000015e (B "ARW") (B "ArrowChain");
  mkCoin 351 0x8000015f (B "MDM") (B "Medium");
  mkCoin 352 0x80000160 (B "CYB") (B "Cybex");
  mkCoin 353 0x80000161 (B "LTO") (B "LTO Network");
  mkCoin 354 0x80000162 (B "DOT") (B "Polkadot");
  mkCoin 355 0x80000163 (B "AEON") (B "Aeon");
  mkCoin 356 0x80000164 (B "RES") (B "Resistance");
  mkCoin 357 0x80000165 (B "AYA") (B "Aryacoin");
  mkCoin 358 0x80000166 (B "DAPS") (B "Dapscoin");
  mkCoin 359 0x80000167 (B "CSC") (B "CasinoCoin");
  mkCoin 360 0x80000168 (B "VSYS") (B "V Systems");
  mkCoin 361 0x80000169 (B "NOLLAR") (B "Nollar");
  mkCoin 362 0x8000016a (B "XNOS") (B "NOS");
  mkCoin 363 0x8000016b (B "CPU") (B "CPUchain");
  mkCoin 364 0x8000016c (B "LAMB") (B "Lambda Storage Chain");
  mkCoin 365 0x8000016d (B "VCT") (B "ValueCyber");
  mkCoin 366 0x8000016e (B "CZR") (B "Canonchain");
  mkCoin 367 0x8000016f (B "ABBC") (B "ABBC");
  mkCoin 368 0x80000170 (B "HET") (B "HET");
  mkCoin 369 0x80000171 (B "XAS") (B "Asch");
  mkCoin 370 0x80000172 (B "VDL") (B "Vidulum");
  mkCoin 371 0x80000173 (B "MED") (B "MediBloc");
  mkCoin 372 0x80000174 (B "ZVC") (B "ZVChain");
  mkCoin 373 0x80000175 (B "VESTX") (B "Vestx");
  mkCoin 374 0x80000176 (B "DBT") (B "DarkBit");
  mkCoin 375 0x80000177 (B "SEOS") (B "SuperEOS");
  mkCoin 376 0x80000178 (B "MXW") (B "Maxonrow");
  mkCoin 377 0x80000179 (B "ZNZ") (B "ZENZO");
  mkCoin 378 0x8000017a (B "XCX") (B "XChain");
  mkCoin 379 0x8000017b (B "SOX") (B "SonicX");
  mkCoin 380 0x8000017c (B "NYZO") (B "Nyzo");
  mkCoin 381 0x8000017d (B "ULC") (B "ULCoin");
  mkCoin 382 0x8000017e (B "RYO") (B "Ryo Currency");
  mkCoin 383 0x8000017f (B "KAL") (B "Kaleidochain");
  mkCoin 384 0x80000180 (B "XSN") (B "Stakenet");
  mkCoin 385 0x80000181 (B "DOGEC") (B "DogeCash");
  mkCoin 386 0x80000182 (B "BMV") (B "Bitcoin Matteo's Vision");
  mkCoin 387 0x80000183 (B "QBC") (B "Quebecoin");
  mkCoin 388 0x80000184 (B "IMG") (B "ImageCoin");
  mkCoin 389 0x80000185 (B "QOS") (B "QOS");
  mkCoin 390 0x80000186 (B "PKT") (B "PKT");
  mkCoin 391 0x80000187 (B "LHD") (B "LitecoinHD");
  mkCoin 392 0x80000188 (B "CENNZ") (B "CENNZnet");
  mkCoin 393 0x80000189 (B "HSN") (B "Hyper Speed Network");
  mkCoin 394 0x8000018a (B "CRO") (B "Crypto Chain");
  mkCoin 395 0x8000018b (B "UMBRU") (B "Umbru");
  mkCoin 396 0x8000018c (B "EVER") (B "Everscale");
  mkCoin 397 0x8000018d (B "NEAR") (B "NEAR Protocol");
  mkCoin 398 0x8000018e (B "XPC") (B "XPChain");
  mkCoin 399 0x8000018f (B "ZOC") (B "01coin");
  mkCoin 400 0x80000190 (B "NIX") (B "NIX");
  mkCoin 401 0x80000191 (B "UC") (B "Utopiacoin");
  mkCoin 402 0x80000192 (B "GALI") (B "Galilel");
  mkCoin 403 0x80000193 (B "OLT") (B "Oneledger");
  mkCoin 404 0x80000194 (B "XBI") (B "XBI");
  mkCoin 405 0x80000195 (B "DONU") (B "DONU");
  mkCoin 406 0x80000196 (B "EARTHS") (B "Earths");
  mkCoin 407 0x80000197 (B "HDD") (B "HDDCash");
  mkCoin 408 0x80000198 (B "SUGAR") (B "Sugarchain");
  mkCoin 409 0x80000199 (B "AILE") (B "AileCoin");
  mkCoin 410 0x8000019a (B "TENT") (B "TENT");
  mkCoin 411 0x8000019b (B "TAN") (B "Tangerine Network");
  mkCoin 412 0x8000019c (B "AIN") (B "AIN");
  mkCoin 413 0x8000019d (B "MSR") (B "Masari");
  mkCoin 414 0x8000019e (B "SUMO") (B "Sumokoin");
  mkCoin 415 0x8000019f (B "ETN") (B "Electroneum");
  mkCoin 416 0x800001a0 (B "BYTZ") (B "BYTZ");
  mkCoin 417 0x800001a1 (B "WOW") (B "Wownero");
  mkCoin 418 0x800001a2 (B "XTNC") (B "XtendCash");
  mkCoin 419 0x800001a3 (B "LTHN") (B "Lethean");
  mkCoin 420 0x800001a4 (B "NODE") (B "NodeHost");
  mkCoin 421 0x800001a5 (B "AGM") (B "Argoneum");
  mkCoin 422 0x800001a6 (B "CCX") (B "Conceal Network");
  mkCoin 423 0x800001a7 (B "TNET") (B "Title Network");
  mkCoin 424 0x800001a8 (B "TELOS") (B "TelosCoin");
  mkCoin 425 0x800001a9 (B "AION") (B "Aion");
  mkCoin 426 0x800001aa (B "BC") (B "Bitcoin Confidential");
  mkCoin 427 0x800001ab (B "KTV") (B "KmushiCoin");
  mkCoin 428 0x800001ac (B "ZCR") (B "ZCore");
  mkCoin 429 0x800001ad (B "ERG") (B "Ergo");
  mkCoin 430 0x800001ae (B "PESO") (B "Criptopeso");
  mkCoin 431 0x800001af (B "BTC2") (B "Bitcoin 2");
  mkCoin 432 0x800001b0 (B "XRPHD") (B "XRPHD");
  mkCoin 433 0x800001b1 (B "WE") (B "WE Coin");
  mkCoin 434 0x800001b2 (B "KSM") (B "Kusama");
  mkCoin 435 0x800001b3 (B "PCN") (B "Peepcoin");
  mkCoin 436 0x800001b4 (B "NCH") (B "NetCloth");
  mkCoin 437 0x800001b5 (B "ICU") (B "CHIPO");
  mkCoin 438 0x800001b6 (B "FNSA") (B "FINSCHIA");
  mkCoin 439 0x800001b7 (B "DTP") (B "DeVault Token Protocol");
  mkCoin 440 0x800001b8 (B "BTCR") (B "Bitcoin Royale");
  mkCoin 441 0x800001b9 (B "AERGO") (B "AERGO");
  mkCoin 442 0x800001ba (B "XTH") (B "Dothereum");
  mkCoin 443 0x800001bb (B "LV") (B "Lava");
  mkCoin 444 0x800001bc (B "PHR") (B "Phore");
  mkCoin 445 0x800001bd (B "VITAE") (B "Vitae");
  mkCoin 446 0x800001be (B "COCOS") (B "Cocos-BCX");
  mkCoin 447 0x800001bf (B "DIN") (B "Dinero");
  mkCoin 448 0x800001c0 (B "SPL") (B "Simplicity");
  mkCoin 449 0x800001c1 (B "YCE") (B "MYCE");
  mkCoin 450 0x800001c2 (B "XLR") (B "Solaris");
  mkCoin 451 0x800001c3 (B "KTS") (B "Klimatas");
  mkCoin 452 0x800001c4 (B "DGLD") (B "DGLD");
  mkCoin 453 0x800001c5 (B "XNS") (B "Insolar");
  mkCoin 454 0x800001c6 (B "EM") (B "EMPOW");
  mkCoin 455 0x800001c7 (B "SHN") (B "ShineBlocks");
  mkCoin 456 0x800001c8 (B "SEELE") (B "Seele");
  mkCoin 457 0x800001c9 (B "AE") (B "æternity");
  mkCoin 458 0x800001ca (B "ODX") (B "ObsidianX");
  mkCoin 459 0x800001cb (B "KAVA") (B "Kava");
  mkCoin 460 0x800001cc (B "GLEEC") (B "GLEEC");
  mkCoin 461 0x800001cd (B "FIL") (B "Filecoin");
  mkCoin 462 0x800001ce (B "RUTA") (B "Rutanio");
  mkCoin 463 0x800001cf (B "CSDT") (B "CSDT");
  mkCoin 464 0x800001d0 (B "ETI") (B "EtherInc");
  mkCoin 465 0x800001d1 (B "ZSLP") (B "Zclassic Simple Ledger Protocol");
  mkCoin 466 0x800001d2 (B "ERE") (B "EtherCore");
  mkCoin 467 0x800001d3 (B "DX") (B "DxChain Token");
  mkCoin 468 0x800001d4 (B "CPS") (B "Capricoin+");
  mkCoin 469 0x800001d5 (B "BTH") (B "Bithereum");
  mkCoin 470 0x800001d6 (B "MESG") (B "MESG");
  mkCoin 471 0x800001d7 (B "FIMK") (B "FIMK");
  mkCoin 472 0x800001d8 (B "AR") (B "Arweave");
  mkCoin 473 0x800001d9 (B "OGO") (B "Origo");
  mkCoin 474 0x800001da (B "ROSE") (B "Oasis Network");
  mkCoin 475 0x800001db (B "BARE") (B "BARE Network");
  mkCoin 476 0x800001dc (B "GLEEC") (B "GleecBTC");
  mkCoin 477 0x800001dd (B "CLR") (B "Color Coin");
  mkCoin 478 0x800001de (B "RNG") (B "Ring");
  mkCoin 479 0x800001df (B "OLO") (B "Tool Global");
  mkCoin 480 0x800001e0 (B "PEXA") (B "Pexa");
  mkCoin 481 0x800001e1 (B "MOON") (B "Mooncoin");
  mkCoin 482 0x800001e2 (B "OCEAN") (B "Ocean Protocol");
  mkCoin 483 0x800001e3 (B "BNT") (B "Bluzelle Native");
  mkCoin 484 0x800001e4 (B "AMO") (B "AMO Blockchain");
  mkCoin 485 0x800001e5 (B "FCH") (B "FreeCash");
  mkCoin 486 0x800001e6 (B "LAT") (B "PlatON");
  mkCoin 487 0x800001e7 (B "COIN") (B "Bitcoin Bank");
  mkCoin 488 0x800001e8 (B "VEO") (B "Amoveo");
  mkCoin 489 0x800001e9 (B "CCA") (B "Counos Coin");
  mkCoin 490 0x800001ea (B "GFN") (B "Graphene");
  mkCoin 491 0x800001eb (B "BIP") (B "Minter Network");
  mkCoin 492 0x800001ec (B "KPG") (B "Kunpeng Network");
  mkCoin 493 0x800001ed (B "FIN") (B "FINL Chain");
  mkCoin 494 0x800001ee (B "BAND") (B "Band");
  mkCoin 495 0x800001ef (B "DROP") (B "Dropil");
  mkCoin 496 0x800001f0 (B "BHT") (B "Bluehelix Chain");
  mkCoin 497 0x800001f1 (B "LYRA") (B "Scrypta");
  mkCoin 498 0x800001f2 (B "CS") (B "Credits");
  mkCoin 499 0x800001f3 (B "RUPX") (B "Rupaya");
  mkCoin 500 0x800001f4 (B "THETA") (B "Theta");
  mkCoin 501 0x800001f5 (B "SOL") (B "Solana");
  mkCoin 502 0x800001f6 (B "THT") (B "ThoughtAI");
  mkCoin 503 0x800001f7 (B "CFX") (B "Conflux");
  mkCoin 504 0x800001f8 (B "KUMA") (B "Kumacoin");
  mkCoin 505 0x800001f9 (B "HASH") (B "Provenance");
  mkCoin 506 0x800001fa (B "CSPR") (B "Casper");
  mkCoin 507 0x800001fb (B "EARTH") (B "EARTH");
  mkCoin 508 0x800001fc (B "EGLD") (B "MultiversX");
  mkCoin 509 0x800001fd (B "CHI") (B "Xaya");
  mkCoin 510 0x800001fe (B "KOTO") (B "Koto");
  mkCoin 511 0x800001ff (B "OTC") (B "θ");
  mkCoin 512 0x80000200 (B "XRD") (B "Radiant");
  mkCoin 513 0x80000201 (B "SEELEN") (B "Seele-N");
  mkCoin 514 0x80000202 (B "AETH") (B "AETH");
  mkCoin 515 0x80000203 (B "DNA") (B "Idena");
  mkCoin 516 0x80000204 (B "VEE") (B "Virtual Economy Era");
  mkCoin 517 0x80000205 (B "SIERRA") (B "SierraCoin");
  mkCoin 518 0x80000206 (B "LET") (B "Linkeye");
  mkCoin 519 0x80000207 (B "BSC") (B "Bitcoin Smart Contract");
  mkCoin 520 0x80000208 (B "BTCV") (B "BitcoinVIP");
  mkCoin 521 0x80000209 (B "ABA") (B "Dabacus");
  mkCoin 522 0x8000020a (B "SCC") (B "StakeCubeCoin");
  mkCoin 523 0x8000020b (B "EDG") (B "Edgeware");
  mkCoin 524 0x8000020c (B "AMS") (B "AmsterdamCoin");
  mkCoin 525 0x8000020d (B "GOSS") (B "GOSSIP Coin");
  mkCoin 526 0x8000020e (B "BU") (B "BUMO");
  mkCoin 527 0x8000020f (B "GRAM") (B "GRAM");
  mkCoin 528 0x80000210 (B "YAP") (B "Yapstone");
  mkCoin 529 0x80000211 (B "SCRT") (B "Secret Network");
  mkCoin 530 0x80000212 (B "NOVO") (B "Novo");
  mkCoin 531 0x80000213 (B "GHOST") (B "Ghost");
  mkCoin 532 0x80000214 (B "HST") (B "HST");
  mkCoin 533 0x80000215 (B "PRJ") (B "ProjectCoin");
  mkCoin 534 0x80000216 (B "YOU") (B "YOUChain");
  mkCoin 535 0x80000217 (B "XHV") (B "Haven Protocol");
  mkCoin 536 0x80000218 (B "BYND") (B "Beyondcoin");
  mkCoin 537 0x80000219 (B "JOYS") (B "Joys Digital");
  mkCoin 538 0x8000021a (B "VAL") (B "Valorbit");
  mkCoin 539 0x8000021b (B "FLOW") (B "Flow");
  mkCoin 540 0x8000021c (B "SMESH") (B "Spacemesh Coin");
  mkCoin 541 0x8000021d (B "SCDO") (B "SCDO");
  mkCoin 542 0x8000021e (B "IQS") (B "IQ-Cash");
  mkCoin 543 0x8000021f (B "BIND") (B "Compendia");
  mkCoin 544 0x80000220 (B "COINEVO") (B "Coinevo");
  mkCoin 545 0x80000221 (B "SCRIBE") (B "Scribe");
  mkCoin 546 0x80000222 (B "HYN") (B "Hyperion");
  mkCoin 547 0x80000223 (B "BHP") (B "BHP");
  mkCoin 548 0x80000224 (B "BBC") (B "BigBang Core");
  mkCoin 549 0x80000225 (B "MKF") (B "MarketFinance");
  mkCoin 550 0x80000226 (B "XDC") (B "XinFin");
  mkCoin 551 0x80000227 (B "STR") (B "Straightedge");
  mkCoin 552 0x80000228 (B "SUM") (B "Sumcoin");
  mkCoin 553 0x80000229 (B "HBC") (B "HuobiChain");
  mkCoin 555 0x8000022b (B "BCS") (B "Bitcoin Smart");
  mkCoin 556 0x8000022c (B "KTS") (B "Kratos");
  mkCoin 557 0x8000022d (B "LKR") (B "Lkrcoin");
  mkCoin 558 0x8000022e (B "TAO") (B "Tao");
  mkCoin 559 0x8000022f (B "XWC") (B "Whitecoin");
  mkCoin 560 0x80000230 (B "DEAL") (B "DEAL");
  mkCoin 561 0x80000231 (B "NTY") (B "Nexty");
  mkCoin 562 0x80000232 (B "TOP") (B "TOP NetWork");
  mkCoin 564 0x80000234 (B "AG") (B "Agoric");
  mkCoin 565 0x80000235 (B "CICO") (B "Coinicles");
  mkCoin 566 0x80000236 (B "IRIS") (B "Irisnet");
  mkCoin 567 0x80000237 (B "NCG") (B "Nine Chronicles");
  mkCoin 568 0x80000238 (B "LRG") (B "Large Coin");
  mkCoin 569 0x80000239 (B "SERO") (B "Super Zero Protocol");
  mkCoin 570 0x8000023a (B "BDX") (B "Beldex");
  mkCoin 571 0x8000023b (B "CCXX") (B "Counos X");
  mkCoin 572 0x8000023c (B "SLS") (B "Saluscoin");
  mkCoin 573 0x8000023d (B "SRM") (B "Serum");
  mkCoin 575 0x8000023f (B "VIVT") (B "VIDT Datalink");
  mkCoin 576 0x80000240 (B "BPS") (B "BitcoinPoS");
  mkCoin 577 0x80000241 (B "NKN") (B "NKN");
  mkCoin 578 0x80000242 (B "ICL") (B "ILCOIN");
  mkCoin 579 0x80000243 (B "BONO") (B "Bonorum");
  mkCoin 580 0x80000244 (B "PLC") (B "PLATINCOIN");
  mkCoin 581 0x80000245 (B "DUN") (B "Dune");
  mkCoin 582 0x80000246 (B "DMCH") (B "Darmacash");
  mkCoin 583 0x80000247 (B "CTC") (B "Creditcoin");
  mkCoin 584 0x80000248 (B "KELP") (B "Haidai Network");
  mkCoin 585 0x80000249 (B "GBCR") (B "GoldBCR");
  mkCoin 586 0x8000024a (B "XDAG") (B "XDAG");
  mkCoin 587 0x8000024b (B "PRV") (B "Incognito Privacy");
  mkCoin 588 0x8000024c (B "SCAP") (B "SafeCapital");
  mkCoin 589 0x8000024d (B "TFUEL") (B "Theta Fuel");
  mkCoin 590 0x8000024e (B "GTM") (B "Gentarium");
  mkCoin 591 0x8000024f (B "RNL") (B "RentalChain");
  mkCoin 592 0x80000250 (B "GRIN") (B "Grin");
  mkCoin 593 0x80000251 (B "MWC") (B "MimbleWimbleCoin");
  mkCoin 594 0x80000252 (B "DOCK") (B "Dock");
  mkCoin 595 0x80000253 (B "POLYX") (B "Polymesh");
  mkCoin 596 0x80000254 (B "DIVER") (B "Divergenti");
  mkCoin 597 0x80000255 (B "XEP") (B "Electra Protocol");
  mkCoin 598 0x80000256 (B "APN") (B "Apron");
  mkCoin 599 0x80000257 (B "TFC") (B "Turbo File Coin");
  mkCoin 600 0x80000258 (B "UTE") (B "Unit-e");
  mkCoin 601 0x80000259 (B "MTC") (B "Metacoin");
  mkCoin 602 0x8000025a (B "NC") (B "NobodyCash");
  mkCoin 603 0x8000025b (B "XINY") (B "Xinyuehu");
  mkCoin 604 0x8000025c (B "DYN") (B "Dynamo");
  mkCoin 605 0x8000025d (B "BUFS") (B "Buffer");
  mkCoin 606 0x8000025e (B "STOS") (B "Stratos");
  mkCoin 607 0x8000025f (B "TON") (B "TON");
  mkCoin 608 0x80000260 (B "TAFT") (B "TAFT");
  mkCoin 609 0x80000261 (B "HYDRA") (B "HYDRA");
  mkCoin 610 0x80000262 (B "NOR") (B "Noir");
  mkCoin 611 0x80000263 (B "") (B "Manta Network Private Asset");
  mkCoin 612 0x80000264 (B "") (B "Calamari Network Private Asset");
  mkCoin 613 0x80000265 (B "WCN") (B "Widecoin");
  mkCoin 614 0x80000266 (B "OPT") (B "Optimistic Ethereum");
  mkCoin 615 0x80000267 (B "PSWAP") (B "PolkaSwap");
  mkCoin 616 0x80000268 (B "VAL") (B "Validator");
  mkCoin 617 0x80000269 (B "XOR") (B "Sora");
  mkCoin 618 0x8000026a (B "SSP") (B "SmartShare");
  mkCoin 619 0x8000026b (B "DEI") (B "DeimosX");
  mkCoin 621 0x8000026d (B "ZERO") (B "Singularity");
  mkCoin 622 0x8000026e (B "ALPHA") (B "AlphaDAO");
  mkCoin 623 0x8000026f (B "BDECO") (B "BDCashProtocol Ecosystem");
  mkCoin 624 0x80000270 (B "NOBL") (B "Nobility");
  mkCoin 625 0x80000271 (B "EAST") (B "Eastcoin");
  mkCoin 626 0x80000272 (B "KDA") (B "Kadena");
  mkCoin 627 0x80000273 (B "SOUL") (B "Phantasma");
  mkCoin 628 0x80000274 (B "LORE") (B "Gitopia");
  mkCoin 629 0x80000275 (B "FNR") (B "Fincor");
  mkCoin 630 0x80000276 (B "NEXUS") (B "Nexus");
  mkCoin 631 0x80000277 (B "QTZ") (B "Quartz");
  mkCoin 632 0x80000278 (B "MAS") (B "Massa");
  mkCoin 633 0x80000279 (B "CALL") (B "Callchain");
  mkCoin 634 0x8000027a (B "VAL") (B "Validity");
  mkCoin 635 0x8000027b (B "POKT") (B "Pocket Network");
  mkCoin 636 0x8000027c (B "EMIT") (B "EMIT");
  mkCoin 637 0x8000027d (B "APTOS") (B "Aptos");
  mkCoin 638 0x8000027e (B "ADON") (B "ADON");
  mkCoin 639 0x8000027f (B "BTSG") (B "BitSong");
  mkCoin 640 0x80000280 (B "LFC") (B "Leofcoin");
  mkCoin 641 0x80000281 (B "KCS") (B "KuCoin Shares");
  mkCoin 642 0x80000282 (B "KCC") (B "KuCoin Community Chain");
  mkCoin 643 0x80000283 (B "AZERO") (B "Aleph Zero");
  mkCoin 644 0x80000284 (B "TREE") (B "Tree");
  mkCoin 645 0x80000285 (B "LX") (B "Lynx");
  mkCoin 646 0x80000286 (B "XLN") (B "Lunarium");
  mkCoin 647 0x80000287 (B "CIC") (B "CIC Chain");
  mkCoin 648 0x80000288 (B "ZRB") (B "Zarb");
  mkCoin 650 0x8000028a (B "UCO") (B "Archethic");
  mkCoin 651 0x8000028b (B "SFX") (B "Safex Cash");
  mkCoin 652 0x8000028c (B "SFT") (B "Safex Token");
  mkCoin 653 0x8000028d (B "WSFX") (B "Wrapped Safex Cash");
  mkCoin 654 0x8000028e (B "USDG") (B "US Digital Gold");
  mkCoin 655 0x8000028f (B "WMP") (B "WAMP");
  mkCoin 656 0x80000290 (B "EKTA") (B "Ekta");
  mkCoin 657 0x80000291 (B "YDA") (B "YadaCoin");
  mkCoin 659 0x80000293 (B "KOIN") (B "Koinos");
  mkCoin 660 0x80000294 (B "PIRATE") (B "PirateCash");
  mkCoin 661 0x80000295 (B "UNQ") (B "Unique");
  mkCoin 663 0x80000297 (B "SFRX") (B "EtherGem Sapphire");
  mkCoin 664 0x80000298 (B "BSTY") (B "GlobalBoost-Y");
  mkCoin 665 0x80000299 (B "IMP") (B "Impact Protocol");
  mkCoin 666 0x8000029a (B "ACT") (B "Achain");
  mkCoin 667 0x8000029b (B "PRKL") (B "Perkle");
  mkCoin 668 0x8000029c (B "SSC") (B "SelfSell");
  mkCoin 669 0x8000029d (B "GC") (B "GateChain");
  mkCoin 670 0x8000029e (B "PLGR") (B "Pledger");
  mkCoin 671 0x8000029f (B "MPLGR") (B "Pledger");
  mkCoin 672 0x800002a0 (B "KNOX") (B "Knox");
  mkCoin 673 0x800002a1 (B "ZED") (B "ZED");
  mkCoin 674 0x800002a2 (B "CNDL") (B "Candle");
  mkCoin 675 0x800002a3 (B "WLKR") (B "Walker Crypto Innovation Index");
  mkCoin 676 0x800002a4 (B "WLKRR") (B "Walker");
  mkCoin 677 0x800002a5 (B "YUNGE") (B "Yunge");
  mkCoin 678 0x800002a6 (B "Voken") (B "Voken");
  mkCoin 679 0x800002a7 (B "APL") (B "Apollo");
  mkCoin 680 0x800002a8 (B "Evrynet") (B "Evrynet");
  mkCoin 681 0x800002a9 (B "NENG") (B "Nengcoin");
  mkCoin 682 0x800002aa (B "CHTA") (B "Cheetahcoin");
  mkCoin 683 0x800002ab (B "ALEO") (B "Aleo Network");
  mkCoin 685 0x800002ad (B "OAS") (B "Oasys");
  mkCoin 686 0x800002ae (B "KAR") (B "Karura Network");
  mkCoin 688 0x800002b0 (B "CET") (B "CoinEx Chain");
  mkCoin 690 0x800002b2 (B "KLV") (B "KleverChain");
  mkCoin 694 0x800002b6 (B "VTBC") (B "VTB Community");
  mkCoin 698 0x800002ba (B "VEIL") (B "Veil");
  mkCoin 699 0x800002bb (B "GTB") (B "GotaBit");
  mkCoin 700 0x800002bc (B "XDAI") (B "xDai");
  mkCoin 701 0x800002bd (B "COM") (B "Commercio");
  mkCoin 702 0x800002be (B "CCC") (B "Commercio Cash Credit");
  mkCoin 704 0x800002c0 (B "RAQ") (B "Ra Quantum");
  mkCoin 705 0x800002c1 (B "PEG") (B "Pegasus Token");
  mkCoin 706 0x800002c2 (B "LKG") (B "Lionking");
  mkCoin 707 0x800002c3 (B "MCOIN") (B "Moneta Coin");
  mkCoin 710 0x800002c6 (B "FURY") (B "Highbury");
  mkCoin 711 0x800002c7 (B "CHC") (B "Chaincoin");
  mkCoin 712 0x800002c8 (B "SERF") (B "Serfnet");
  mkCoin 713 0x800002c9 (B "XTL") (B "Katal Chain");
  mkCoin 714 0x800002ca (B "BNB") (B "Binance");
  mkCoin 715 0x800002cb (B "SIN") (B "Sinovate");
  mkCoin 716 0x800002cc (B "DLN") (B "Delion");
  mkCoin 717 0x800002cd (B "BONTE") (B "Bontecoin");
  mkCoin 718 0x800002ce (B "PEER") (B "Peer");
  mkCoin 719 0x800002cf (B "ZET") (B "Zetacoin");
  mkCoin 720 0x800002d0 (B "ABY") (B "Artbyte");
  mkCoin 721 0x800002d1 (B "PGX") (B "Mirai Chain");
  mkCoin 722 0x800002d2 (B "IL8P") (B "InfiniLooP");
  mkCoin 724 0x800002d4 (B "XVC") (B "Vanillacash");
  mkCoin 725 0x800002d5 (B "MCX") (B "MultiCash");
  mkCoin 727 0x800002d7 (B "BLU") (B "BluCrates");
  mkCoin 730 0x800002da (B "HEALIOS") (B "Tenacity");
  mkCoin 731 0x800002db (B "BMK") (B "Bitmark");
  mkCoin 734 0x800002de (B "DENTX") (B "DENTNet");
  mkCoin 737 0x800002e1 (B "ATOP") (B "Financial Blockchain");
  mkCoin 747 0x800002eb (B "CFG") (B "Centrifuge");
  mkCoin 750 0x800002ee (B "XPRT") (B "Persistence");
  mkCoin 753 0x800002f1 (B "") (B "Age X25519 Encryption");
  mkCoin 754 0x800002f2 (B "") (B "Age NIST Encryption");
  mkCoin 757 0x800002f5 (B "HONEY") (B "HoneyWood");
  mkCoin 768 0x80000300 (B "BALLZ") (B "Ballzcoin");
  mkCoin 770 0x80000302 (B "COSA") (B "Cosanta");
  mkCoin 771 0x80000303 (B "BR") (B "BR");
  mkCoin 773 0x80000305 (B "CSB") (B "CosmoBliss");
  mkCoin 775 0x80000307 (B "PLSR") (B "Pulsar Coin");
  mkCoin 776 0x80000308 (B "KEY") (B "Keymaker Coin");
  mkCoin 777 0x80000309 (B "BTW") (B "Bitcoin World");
  mkCoin 780 0x8000030c (B "PLCUC") (B "PLC Ultima Classic");
  mkCoin 781 0x8000030d (B "PLCUX") (B "PLC Ultima X");
  mkCoin 782 0x8000030e (B "PLCU") (B "PLC Ultima");
  mkCoin 783 0x8000030f (B "SMARTBC") (B "SMART Blockchain");
  mkCoin 784 0x80000310 (B "SUI") (B "Sui");
  mkCoin 786 0x80000312 (B "UIDD") (B "UIDD");
  mkCoin 787 0x80000313 (B "ACA") (B "Acala");
  mkCoin 788 0x80000314 (B "BNC") (B "Bifrost");
  mkCoin 789 0x80000315 (B "TAU") (B "Lamden");
  mkCoin 794 0x8000031a (B "INTR") (B "Interlay");
  mkCoin 795 0x8000031b (B "KINT") (B "Kintsugi");
  mkCoin 799 0x8000031f (B "PDEX") (B "Polkadex");
  mkCoin 800 0x80000320 (B "BEET") (B "Beetle Coin");
  mkCoin 801 0x80000321 (B "DST") (B "DSTRA");
  mkCoin 802 0x80000322 (B "CY") (B "Cyberyen");
  mkCoin 804 0x80000324 (B "ZKS") (B "zkSync");
  mkCoin 808 0x80000328 (B "QVT") (B "Qvolta");
  mkCoin 809 0x80000329 (B "SDN") (B "Shiden Network");
  mkCoin 810 0x8000032a (B "ASTR") (B "Astar Network");
  mkCoin 813 0x8000032d (B "MEER") (B "Qitmeer");
  mkCoin 816 0x80000330 (B "FSC") (B "FSC");
  mkCoin 818 0x80000332 (B "VET") (B "VeChain Token");
  mkCoin 819 0x80000333 (B "REEF") (B "Reef");
  mkCoin 820 0x80000334 (B "CLO") (B "Callisto");
  mkCoin 822 0x80000336 (B "BDB") (B "BigchainDB");
  mkCoin 824 0x80000338 (B "RBNT") (B "Redbelly Network");
  mkCoin 827 0x8000033b (B "ACE") (B "Endurance");
  mkCoin 828 0x8000033c (B "CCN") (B "ComputeCoin");
  mkCoin 829 0x8000033d (B "BBA") (B "BBACHAIN");
  mkCoin 831 0x8000033f (B "CRUZ") (B "cruzbit");
  mkCoin 832 0x80000340 (B "SAPP") (B "Sapphire");
  mkCoin 833 0x80000341 (B "777") (B "Jackpot");
  mkCoin 834 0x80000342 (B "KYAN") (B "Kyanite");
  mkCoin 835 0x80000343 (B "AZR") (B "Azzure");
  mkCoin 836 0x80000344 (B "CFL") (B "CryptoFlow");
  mkCoin 837 0x80000345 (B "DASHD") (B "Dash Diamond");
  mkCoin 838 0x80000346 (B "TRTT") (B "Trittium");
  mkCoin 839 0x80000347 (B "UCR") (B "Ultra Clear");
  mkCoin 840 0x80000348 (B "PNY") (B "Peony");
  mkCoin 841 0x80000349 (B "BECN") (B "Beacon");
  mkCoin 842 0x8000034a (B "MONK") (B "Monk");
  mkCoin 843 0x8000034b (B "SAGA") (B "CryptoSaga");
  mkCoin 844 0x8000034c (B "SUV") (B "Suvereno");
  mkCoin 845 0x8000034d (B "ESK") (B "EskaCoin");
  mkCoin 846 0x8000034e (B "OWO") (B "OneWorld Coin");
  mkCoin 847 0x8000034f (B "PEPS") (B "PEPS Coin");
  mkCoin 848 0x80000350 (B "BIR") (B "Birake");
  mkCoin 849 0x80000351 (B "MOBIC") (B "MobilityCoin");
  mkCoin 850 0x80000352 (B "FLS") (B "Flits");
  mkCoin 851 0x80000353 (B "FRECO") (B "Freco");
  mkCoin 852 0x80000354 (B "DSM") (B "Desmos");
  mkCoin 853 0x80000355 (B "PRCY") (B "PRCY Coin");
  mkCoin 858 0x8000035a (B "HVH") (B "HAVAH");
  mkCoin 866 0x80000362 (B "MOB") (B "MobileCoin");
  mkCoin 868 0x80000364 (B "IF") (B "Infinitefuture");
  mkCoin 877 0x8000036d (B "NAM") (B "Namada");
  mkCoin 878 0x8000036e (B "SCR") (B "Scorum Network");
  mkCoin 880 0x80000370 (B "LUM") (B "Lum Network");
  mkCoin 883 0x80000373 (B "ZBC") (B "ZooBC");
  mkCoin 886 0x80000376 (B "ADF") (B "AD Token");
  mkCoin 888 0x80000378 (B "NEO") (B "NEO");
  mkCoin 889 0x80000379 (B "TOMO") (B "TOMO");
  mkCoin 890 0x8000037a (B "XSEL") (B "Seln");
  mkCoin 896 0x80000380 (B "LKSC") (B "LKSCoin");
  mkCoin 898 0x80000382 (B "AS") (B "Assetchain");
  mkCoin 899 0x80000383 (B "XEC") (B "eCash");
  mkCoin 900 0x80000384 (B "LMO") (B "Lumeneo");
  mkCoin 901 0x80000385 (B "NXT") (B "NxtMeta");
  mkCoin 904 0x80000388 (B "HNT") (B "Helium");
  mkCoin 907 0x8000038b (B "FIS") (B "StaFi");
  mkCoin 909 0x8000038d (B "SGE") (B "Saage");
  mkCoin 911 0x8000038f (B "GERT") (B "Gert");
  mkCoin 913 0x80000391 (B "VARA") (B "Vara Network");
  mkCoin 916 0x80000394 (B "META") (B "Metadium");
  mkCoin 917 0x80000395 (B "FRA") (B "Findora");
  mkCoin 919 0x80000397 (B "CCD") (B "Concordium");
  mkCoin 921 0x80000399 (B "AVN") (B "Avian Network");
  mkCoin 925 0x8000039d (B "DIP") (B "Dipper Network");
  mkCoin 928 0x800003a0 (B "GHM") (B "HermitMatrixNetwork");
  mkCoin 931 0x800003a3 (B "RUNE") (B "THORChain (RUNE)");
  mkCoin 945 0x800003b1 (B "UNLOCK") (B "Jasiri protocol");
  mkCoin 955 0x800003bb (B "LTP") (B "LifetionCoin");
  mkCoin 958 0x800003be (B "") (B "KickSoccer");
  mkCoin 960 0x800003c0 (B "VKAX") (B "Vkax");
  mkCoin 966 0x800003c6 (B "MATIC") (B "Matic");
  mkCoin 968 0x800003c8 (B "UNW") (B "UNW");
  mkCoin 969 0x800003c9 (B "QI") (B "Quai Network");
  mkCoin 970 0x800003ca (B "TWINS") (B "TWINS");
  mkCoin 977 0x800003d1 (B "TLOS") (B "Telos");
  mkCoin 981 0x800003d5 (B "TAFECO") (B "Taf ECO Chain");
  mkCoin 985 0x800003d9 (B "AU") (B "Autonomy");
  mkCoin 987 0x800003db (B "VCG") (B "VipCoin");
  mkCoin 988 0x800003dc (B "XAZAB") (B "Xazab core");
  mkCoin 989 0x800003dd (B "AIOZ") (B "AIOZ");
  mkCoin 990 0x800003de (B "CORE") (B "Coreum");
  mkCoin 991 0x800003df (B "PEC") (B "Phoenix");
  mkCoin 992 0x800003e0 (B "UNT") (B "Unit");
  mkCoin 993 0x800003e1 (B "XRB") (B "X Currency");
  mkCoin 994 0x800003e2 (B "QUAI") (B "Quai Network");
  mkCoin 995 0x800003e3 (B "CAPS") (B "Ternoa");
  mkCoin 996 0x800003e4 (B "OKT") (B "OKChain Token");
  mkCoin 997 0x800003e5 (B "SUM") (B "Solidum");
  mkCoin 998 0x800003e6 (B "LBTC") (B "Lightning Bitcoin");
  mkCoin 999 0x800003e7 (B "BCD") (B "Bitcoin Diamond");
  mkCoin 1000 0x800003e8 (B "BTN") (B "Bitcoin New");
  mkCoin 1001 0x800003e9 (B "TT") (B "ThunderCore");
  mkCoin 1002 0x800003ea (B "BKT") (B "BanKitt");
  mkCoin 1003 0x800003eb (B "NODL") (B "Nodle");
  mkCoin 1004 0x800003ec (B "PCOIN") (B "PCOIN");
  mkCoin 1005 0x800003ed (B "TAO") (B "Bittensor");
  mkCoin 1006 0x800003ee (B "HSK") (B "HashKey Chain");
  mkCoin 1007 0x800003ef (B "FTM") (B "Fantom");
  mkCoin 1008 0x800003f0 (B "RPG") (B "RPG");
  mkCoin 1009 0x800003f1 (B "LAKE") (B "iconLake");
  mkCoin 1010 0x800003f2 (B "HT") (B "Huobi ECO Chain");
  mkCoin 1011 0x800003f3 (B "ELV") (B "Eluvio");
  mkCoin 1012 0x800003f4 (B "JOC") (B "Japan Open Chain");
  mkCoin 1013 0x800003f5 (B "BIC") (B "Beincrypto");
  mkCoin 1020 0x800003fc (B "EVC") (B "Evrice");
  mkCoin 1022 0x800003fe (B "XRD") (B "Radix DLT");
  mkCoin 1023 0x800003ff (B "ONE") (B "HARMONY-ONE (Legacy)");
  mkCoin 1024 0x80000400 (B "ONT") (B "Ontology");
  mkCoin 1025 0x80000401 (B "CZZ") (B "Classzz");
  mkCoin 1026 0x80000402 (B "KEX") (B "Kira Exchange Token");
  mkCoin 1027 0x80000403 (B "MCM") (B "Mochimo");
  mkCoin 1028 0x80000404 (B "PLS") (B "Pulse Coin");
  mkCoin 1032 0x80000408 (B "BTCR") (B "BTCR");
  mkCoin 1042 0x80000412 (B "MFID") (B "Moonfish ID");
  mkCoin 1111 0x80000457 (B "BBC") (B "Big Bitcoin");
  mkCoin 1116 0x8000045c (B "CORE") (B "Core");
  mkCoin 1120 0x80000460 (B "RISE") (B "RISE");
  mkCoin 1122 0x80000462 (B "CMT") (B "CyberMiles Token");
  mkCoin 1128 0x80000468 (B "ETSC") (B "Ethereum Social");
  mkCoin 1129 0x80000469 (B "DFI") (B "DeFiChain");
  mkCoin 1130 0x8000046a (B "DFI") (B "DeFiChain EVM Network");
  mkCoin 1137 0x80000471 (B "$DAG") (B "Constellation Labs");
  mkCoin 1145 0x80000479 (B "CDY") (B "Bitcoin Candy");
  mkCoin 1155 0x80000483 (B "ENJ") (B "Enjin Coin");
  mkCoin 1170 0x80000492 (B "HOO") (B "Hoo Smart Chain");
  mkCoin 1234 0x800004d2 (B "ALPH") (B "Alephium");
  mkCoin 1236 0x800004d4 (B "") (B "Masca");
  mkCoin 1237 0x800004d5 (B "") (B "Nostr");
  mkCoin 1280 0x80000500 (B "") (B "Kudos Setler");
  mkCoin 1284 0x80000504 (B "GLMR") (B "Moonbeam");
  mkCoin 1285 0x80000505 (B "MOVR") (B "Moonriver");
  mkCoin 1298 0x80000512 (B "WPC") (B "Wpc");
  mkCoin 1308 0x8000051c (B "WEI") (B "WEI");
  mkCoin 1337 0x80000539 (B "DFC") (B "Defcoin");
  mkCoin 1348 0x80000544 (B "ISLM") (B "IslamicCoin");
  mkCoin 1397 0x80000575 (B "HYC") (B "Hycon");
  mkCoin 1410 0x80000582 (B "TENTSLP") (B "TENT Simple Ledger Protocol");
  mkCoin 1510 0x800005e6 (B "XSC") (B "XT Smart Chain");
  mkCoin 1512 0x800005e8 (B "AAC") (B "Double-A Chain");
  mkCoin 1524 0x800005f4 (B "") (B "Taler");
  mkCoin 1533 0x800005fd (B "BEAM") (B "Beam");
  mkCoin 1551 0x8000060f (B "SDK") (B "Sovereign SDK");
  mkCoin 1555 0x80000613 (B "APC") (B "Apc Chain");
  mkCoin 1616 0x80000650 (B "ELF") (B "AELF");
  mkCoin 1618 0x80000652 (B "AUDL") (B "AUDL");
  mkCoin 1620 0x80000654 (B "ATH") (B "Atheios");
  mkCoin 1627 0x8000065b (B "LUME") (B "Lume Web");
  mkCoin 1642 0x8000066a (B "NEW") (B "Newton");
  mkCoin 1657 0x80000679 (B "BTA") (B "Btachain");
  mkCoin 1668 0x80000684 (B "NEOX") (B "Neoxa");
  mkCoin 1669 0x80000685 (B "MEWC") (B "Meowcoin");
  mkCoin 1688 0x80000698 (B "BCX") (B "BitcoinX");
  mkCoin 1729 0x800006c1 (B "XTZ") (B "Tezos");
  mkCoin 1776 0x800006f0 (B "LBTC") (B "Liquid BTC");
  mkCoin 1777 0x800006f1 (B "BBP") (B "Biblepay");
  mkCoin 1784 0x800006f8 (B "JPYS") (B "JPY Stablecoin");
  mkCoin 1789 0x800006fd (B "VEGA") (B "Vega Protocol");
  mkCoin 1815 0x80000717 (B "ADA") (B "Cardano");
  mkCoin 1818 0x8000071a (B "CUBE") (B "Cube Chain Native Token");
  mkCoin 1856 0x80000743 (B "TES") (B "Teslacoin");
  mkCoin 1888 0x80000760 (B "ZTX") (B "Zetrix");
  mkCoin 1899 0x8000076b (B "XEC") (B "eCash token");
  mkCoin 1901 0x8000076d (B "CLC") (B "Classica");
  mkCoin 1907 0x80000773 (B "BITCI") (B "Bitcicoin");
  mkCoin 1919 0x8000077f (B "VIPS") (B "VIPSTARCOIN");
  mkCoin 1926 0x80000786 (B "CITY") (B "City Coin");
  mkCoin 1955 0x800007a3 (B "XX") (B "xx coin");
  mkCoin 1977 0x800007b9 (B "XMX") (B "Xuma");
  mkCoin 1984 0x800007c0 (B "TRTL") (B "TurtleCoin");
  mkCoin 1985 0x800007c1 (B "SLRT") (B "Solarti Chain");
  mkCoin 1986 0x800007c2 (B "QTH") (B "Qing Tong Horizon");
  mkCoin 1987 0x800007c3 (B "EGEM") (B "EtherGem");
  mkCoin 1988 0x800007c4 (B "MIRA") (B "Mira Chain");
  mkCoin 1989 0x800007c5 (B "HODL") (B "HOdlcoin");
  mkCoin 1990 0x800007c6 (B "PHL") (B "Placeholders");
  mkCoin 1991 0x800007c7 (B "SC") (B "Sia");
  mkCoin 1996 0x800007cc (B "MYT") (B "Mineyourtime");
  mkCoin 1997 0x800007cd (B "POLIS") (B "Polis");
  mkCoin 1998 0x800007ce (B "XMCC") (B "Monoeci");
  mkCoin 1999 0x800007cf (B "COLX") (B "ColossusXT");
  mkCoin 2000 0x800007d0 (B "GIN") (B "GinCoin");
  mkCoin 2001 0x800007d1 (B "MNP") (B "MNPCoin");
  mkCoin 2002 0x800007d2 (B "MLN") (B "Miraland");
  mkCoin 2017 0x800007e1 (B "KIN") (B "Kin");
  mkCoin 2018 0x800007e2 (B "EOSC") (B "EOSClassic");
  mkCoin 2019 0x800007e3 (B "GBT") (B "GoldBean Token");
  mkCoin 2020 0x800007e4 (B "PKC") (B "PKC");
  mkCoin 2021 0x800007e5 (B "SKT") (B "Sukhavati");
  mkCoin 2024 0x800007e8 (B "USBC") (B "Universal Ledger USBC");
  mkCoin 2022 0x800007e6 (B "XHT") (B "Xinghuo Token");
  mkCoin 2023 0x800007e7 (B "COC") (B "Chat On Chain");
  mkCoin 2046 0x800007fe (B "ANY") (B "Any");
  mkCoin 2048 0x80000800 (B "MCASH") (B "MCashChain");
  mkCoin 2049 0x80000801 (B "TRUE") (B "TrueChain");
  mkCoin 2050 0x80000802 (B "MOVO") (B "Movo Smart Chain");
  mkCoin 2086 0x80000826 (B "KILT") (B "KILT Spiritnet");
  mkCoin 2109 0x8000083d (B "SAMA") (B "Exosama Network");
  mkCoin 2112 0x80000840 (B "IoTE") (B "IoTE");
  mkCoin 2125 0x8000084d (B "BAY") (B "BitBay");
  mkCoin 2137 0x80000859 (B "XRG") (B "Ergon");
  mkCoin 2182 0x80000888 (B "CHZ") (B "Chiliz");
  mkCoin 2199 0x80000897 (B "SAMA") (B "Moonsama Network");
  mkCoin 2221 0x800008ad (B "ASK") (B "ASK");
  mkCoin 2222 0x800008ae (B "CWEB") (B "Coinweb");
  mkCoin 2285 0x800008ed (B "") (B "Qiyi Chain");
  mkCoin 2301 0x800008fd (B "QTUM") (B "QTUM");
  mkCoin 2302 0x800008fe (B "ETP") (B "Metaverse");
  mkCoin 2303 0x800008ff (B "GXC") (B "GXChain");
  mkCoin 2304 0x80000900 (B "CRP") (B "CranePay");
  mkCoin 2305 0x80000901 (B "ELA") (B "Elastos");
  mkCoin 2338 0x80000922 (B "SNOW") (B "Snowblossom");
  mkCoin 2365 0x8000093d (B "XIN") (B "Mixin");
  mkCoin 2500 0x800009c4 (B "NEXI") (B "Nexi");
  mkCoin 2570 0x80000a0a (B "AOA") (B "Aurora");
  mkCoin 2718 0x80000a9e (B "NAS") (B "Nebulas");
  mkCoin 2894 0x80000b4e (B "REOSC") (B "REOSC Ecosystem");
  mkCoin 2941 0x80000b7d (B "BND") (B "Blocknode");
  mkCoin 3000 0x80000bb8 (B "SM") (B "Stealth Message");
  mkCoin 3003 0x80000bbb (B "LUX") (B "LUX");
  mkCoin 3030 0x80000bd6 (B "HBAR") (B "Hedera HBAR");
  mkCoin 3077 0x80000c05 (B "COS") (B "Contentos");
  mkCoin 3276 0x80000ccc (B "CCC") (B "CodeChain");
  mkCoin 3333 0x80000d05 (B "SXP") (B "Solar");
  mkCoin 3377 0x80000d31 (B "ROI") (B "ROIcoin");
  mkCoin 3381 0x80000d35 (B "DYN") (B "Dynamic");
  mkCoin 3383 0x80000d37 (B "SEQ") (B "Sequence");
  mkCoin 3501 0x80000dad (B "JFIN") (B "JFIN Coin");
  mkCoin 3552 0x80000de0 (B "DEO") (B "Destocoin");
  mkCoin 3564 0x80000dec (B "DST") (B "DeStream");
  mkCoin 3601 0x80000e11 (B "CY") (B "Cybits");
  mkCoin 3757 0x80000ead (B "MPC") (B "Partisia Blockchain");
  mkCoin 4040 0x80000fc8 (B "FC8") (B "FCH Network");
  mkCoin 4096 0x80001000 (B "YEE") (B "YeeCo");
  mkCoin 4218 0x8000107a (B "IOTA") (B "IOTA");
  mkCoin 4219 0x8000107b (B "SMR") (B "Shimmer");
  mkCoin 4242 0x80001092 (B "AXE") (B "Axe");
  mkCoin 4343 0x800010f7 (B "XYM") (B "Symbol");
  mkCoin 4444 0x8000115c (B "C4E") (B "Chain4Energy");
  mkCoin 4919 0x80001337 (B "XVM") (B "Venidium");
  mkCoin 4999 0x80001387 (B "BXN") (B "BlackFort Exchange Network");
  mkCoin 5000 0x80001388 (B "V12") (B "Vet The Vote");
  mkCoin 5006 0x8000138e (B "SBC") (B "Senior Blockchain");
  mkCoin 5248 0x80001480 (B "FIC") (B "FIC");
  mkCoin 5353 0x800014e9 (B "HNS") (B "Handshake");
  mkCoin 5404 0x8000151c (B "ISK") (B "ISKRA");
  mkCoin 5467 0x8000155b (B "ALTME") (B "ALTME");
  mkCoin 5555 0x800015b3 (B "FUND") (B "Unification");
  mkCoin 5757 0x8000167d (B "STX") (B "Stacks");
  mkCoin 5895 0x80001707 (B "VOW") (B "VowChain VOW");
  mkCoin 5920 0x80001720 (B "SLU") (B "SILUBIUM");
  mkCoin 5995 0x8000176b (B "DUSK") (B "Dusk Network");
  mkCoin 6060 0x800017ac (B "GO") (B "GoChain GO");
  mkCoin 6144 0x80001800 (B "DTS") (B "Datos");
  mkCoin 6174 0x8000181e (B "MOI") (B "My Own Internet");
  mkCoin 6278 0x80001886 (B "STEAMX") (B "Rails Network Mainnet");
  mkCoin 6532 0x80001984 (B "UM") (B "Penumbra");
  mkCoin 6599 0x800019c7 (B "RSC") (B "Royal Sports City");
  mkCoin 6666 0x80001a0a (B "BPA") (B "Bitcoin Pizza");
  mkCoin 6688 0x80001a20 (B "SAFE") (B "SAFE");
  mkCoin 6779 0x80001a7b (B "COTI") (B "COTI");
  mkCoin 6969 0x80001b39 (B "ROGER") (B "TheHolyrogerCoin");
  mkCoin 7000 0x80001b58 (B "ZETA") (B "ZetaChain");
  mkCoin 7027 0x80001b73 (B "ELLA") (B "Ella the heart");
  mkCoin 7028 0x80001b74 (B "AA") (B "Arthera");
  mkCoin 7091 0x80001bb3 (B "TOPL") (B "Topl");
  mkCoin 7331 0x80001ca3 (B "KLY") (B "KLYNTAR");
  mkCoin 7341 0x80001cad (B "SHFT") (B "Shyft");
  mkCoin 7518 0x80001d5e (B "MEV") (B "MEVerse");
  mkCoin 7576 0x80001d98 (B "ADIL") (B "ADIL Chain");
  mkCoin 7777 0x80001e61 (B "BTV") (B "Bitvote");
  mkCoin 7779 0x80001e63 (B "CPV") (B "Compverse");
  mkCoin 8000 0x80001f40 (B "SKY") (B "Skycoin");
  mkCoin 8080 0x80001f90 (B "") (B "DSRV");
  mkCoin 8181 0x80001ff5 (B "BOC") (B "BeOne Chain");
  mkCoin 8192 0x80002000 (B "PAC") (B "pacprotocol");
  mkCoin 8217 0x80002019 (B "KLAY") (B "KLAY");
  mkCoin 8339 0x80002093 (B "BTQ") (B "BitcoinQuark");
  mkCoin 8444 0x800020fc (B "XCH") (B "Chia");
  mkCoin 8680 0x800021e8 (B "PLMNT") (B "Planetmint");
  mkCoin 8866 0x800022a2 (B "GGX") (B "Golden Gate");
  mkCoin 8886 0x800022b6 (B "GGXT") (B "Golden Gate Sydney");
  mkCoin 8888 0x800022b8 (B "SBTC") (B "Super Bitcoin");
  mkCoin 8964 0x80002304 (B "NULS") (B "NULS");
  mkCoin 8997 0x80002325 (B "BBC") (B "Babacoin");
  mkCoin 8998 0x80002326 (B "JGC") (B "JagoanCoin");
  mkCoin 8999 0x80002327 (B "BTP") (B "Bitcoin Pay");
  mkCoin 9000 0x80002328 (B "AVAX") (B "Avalanche");
  mkCoin 9001 0x80002329 (B "ARB1") (B "Arbitrum");
  mkCoin 9002 0x8000232a (B "BOBA") (B "Boba");
  mkCoin 9003 0x8000232b (B "LOOP") (B "Loopring");
  mkCoin 9004 0x8000232c (B "STRK") (B "StarkNet");
  mkCoin 9005 0x8000232d (B "AVAXC") (B "Avalanche C-Chain");
  mkCoin 9006 0x8000232e (B "BSC") (B "Binance Smart Chain");
  mkCoin 9797 0x80002645 (B "NRG") (B "Energi");
  mkCoin 9888 0x800026a0 (B "BTF") (B "Bitcoin Faith");
  mkCoin 9999 0x8000270f (B "GOD") (B "Bitcoin God");
  mkCoin 10000 0x80002710 (B "FO") (B "FIBOS");
  mkCoin 10111 0x8000277f (B "DHP") (B "dHealth");
  mkCoin 10226 0x800027f2 (B "RTM") (B "Raptoreum");
  mkCoin 10242 0x80002802 (B "AA") (B "Arthera");
  mkCoin 10291 0x80002833 (B "XRC") (B "XRhodium");
  mkCoin 10507 0x8000290b (B "NUM") (B "Numbers Protocol");
  mkCoin 10605 0x8000296d (B "XPI") (B "Lotus");
  mkCoin 11111 0x80002b67 (B "ESS") (B "Essentia One");
  mkCoin 11742 0x80002dde (B "VARCH") (B "InvArch");
  mkCoin 11743 0x80002ddf (B "TNKR") (B "Tinkernet");
  mkCoin 12345 0x80003039 (B "IPOS") (B "IPOS");
  mkCoin 12586 0x8000312a (B "MINA") (B "Mina");
  mkCoin 13107 0x80003333 (B "BTY") (B "BitYuan");
  mkCoin 13108 0x80003334 (B "YCC") (B "Yuan Chain Coin");
  mkCoin 14001 0x800036b1 (B "WAX") (B "Worldwide Asset Exchange");
  mkCoin 15845 0x80003de5 (B "SDGO") (B "SanDeGo");
  mkCoin 16181 0x80003f35 (B "XTX") (B "Totem Live Network");
  mkCoin 16754 0x80004172 (B "ARDR") (B "Ardor");
  mkCoin 18000 0x80004650 (B "MTR") (B "Meter");
  mkCoin 19165 0x80004add (B "SAFE") (B "Safecoin");
  mkCoin 19167 0x80004adf (B "FLUX") (B "Flux");
  mkCoin 19169 0x80004ae1 (B "RITO") (B "Ritocoin");
  mkCoin 19788 0x80004d4c (B "ML") (B "Mintlayer");
  mkCoin 20036 0x80004e44 (B "XND") (B "ndau");
  mkCoin 21004 0x8000520c (B "C4EI") (B "c4ei");
  mkCoin 21888 0x80005580 (B "PAC") (B "Pactus");
  mkCoin 22504 0x800057e8 (B "PWR") (B "PWRcoin");
  mkCoin 23000 0x800059d8 (B "EPIC") (B "Epic Cash");
  mkCoin 25252 0x800062a4 (B "BELL") (B "Bellcoin");
  mkCoin 25718 0x80006476 (B "CHX") (B "Own");
  mkCoin 29223 0x80007227 (B "NEXA") (B "Nexa");
  mkCoin 31102 0x8000797e (B "ESN") (B "EtherSocial Network");
  mkCoin 31337 0x80007a69 (B "") (B "ThePower");
  mkCoin 33416 0x80008288 (B "TEO") (B "Trust Eth reOrigin");
  mkCoin 33878 0x80008456 (B "BTCS") (B "Bitcoin Stake");
  mkCoin 34952 0x80008888 (B "BTT") (B "ByteTrade");
  mkCoin 37992 0x80009468 (B "FXTC") (B "FixedTradeCoin");
  mkCoin 39321 0x80009999 (B "AMA") (B "Amabig");
  mkCoin 42069 0x8000a455 (B "FACT") (B "FACT0RN");
  mkCoin 43028 0x8000a814 (B "AXIV") (B "AXIV");
  mkCoin 47803 0x8000babb (B "BAX") (B "BAX");
  mkCoin 49262 0x8000c06e (B "EVE") (B "evan");
  mkCoin 49344 0x8000c0c0 (B "STASH") (B "STASH");
  mkCoin 52752 0x8000ce10 (B "CELO") (B "Celo");
  mkCoin 61616 0x8000f0b0 (B "TH") (B "TianHe");
  mkCoin 65536 0x80010000 (B "KETH") (B "Krypton World");
  mkCoin 69420 0x80010f2c (B "GRLC") (B "Garlicoin");
  mkCoin 70007 0x80011177 (B "GWL") (B "Gewel");
  mkCoin 77777 0x80012fd1 (B "ZYN") (B "Wethio");
  mkCoin 88888 0x80015b38 (B "RYO") (B "c0ban");
  mkCoin 99999 0x8001869f (B "WICC") (B "Waykichain");
  mkCoin 100500 0x80018894 (B "HOME") (B "HomeCoin");
  mkCoin 101010 0x80018a92 (B "STC") (B "Starcoin");
  mkCoin 105105 0x80019a91 (B "STRAX") (B "Strax");
  mkCoin 111111 0x8001b207 (B "KAS") (B "Kaspa");
  mkCoin 161803 0x8002780b (B "APTA") (B "Bloqs4Good");
  mkCoin 200625 0x80030fb1 (B "AKA") (B "Akroma");
  mkCoin 200665 0x80011000 (B "GENOM") (B "GENOM");
  mkCoin 224433 0x80036cb1 (B "CONET") (B "CONET Holesky Network");
  mkCoin 246529 0x8003c301 (B "ATS") (B "ARTIS sigma1");
  mkCoin 261131 0x8003fc0b (B "ZAMA") (B "Zama");
  mkCoin 314159 0x8004cb2f (B "PI") (B "Pi Network");
  mkCoin 333332 0x80051614 (B "VALUE") (B "Value Chain");
  mkCoin 333333 0x80051615 (B "3333") (B "Pi Value Consensus");
  mkCoin 424242 0x80067932 (B "X42") (B "x42");
  mkCoin 534352 0x80082750 (B "SCR") (B "Scroll");
  mkCoin 666666 0x800a2c2a (B "VITE") (B "Vite");
  mkCoin 888888 0x800d9038 (B "SEA") (B "Second Exchange Alliance");
  mkCoin 999999 0x800c9061 (B "WTC") (B "WaltonChain");
  mkCoin 1048576 0x80100000 (B "AMAX") (B "Armonia Meta Chain");
  mkCoin 1171337 0x8011df89 (B "ILT") (B "iOlite");
  mkCoin 1313114 0x8014095a (B "ETHO") (B "Etho Protocol");
  mkCoin 1313500 0x80140adc (B "XERO") (B "Xerom");
  mkCoin 1712144 0x801a2010 (B "LAX") (B "LAPO");
  mkCoin 3924011 0x803be02b (B "EPK") (B "EPIK Protocol");
  mkCoin 4741444 0x80485944 (B "HYD") (B "Hydra Token");
  mkCoin 5249353 0x80501949 (B "BCO") (B "BitcoinOre");
  mkCoin 5249354 0x8050194a (B "BHD") (B "BitcoinHD");
  mkCoin 5264462 0x8050544e (B "PTN") (B "PalletOne");
  mkCoin 5655640 0x80564c58 (B "VLX") (B "Velas");
  mkCoin 5718350 0x8057414e (B "WAN") (B "Wanchain");
  mkCoin 5741564 0x80579bfc (B "WAVES") (B "Waves");
  mkCoin 5741565 0x80579bfd (B "WEST") (B "Waves Enterprise");
  mkCoin 6382179 0x80616263 (B "ABC") (B "Abcmint");
  mkCoin 6517357 0x8063726d (B "CRM") (B "Creamcoin");
  mkCoin 7171666 0x806d6e52 (B "BROCK") (B "Bitrock");
  mkCoin 7562605 0x8073656d (B "SEM") (B "Semux");
  mkCoin 7567736 0x80737978 (B "ION") (B "ION");
  mkCoin 7777777 0x8076adf1 (B "FCT") (B "FirmaChain");
  mkCoin 7825266 0x80776772 (B "WGR") (B "WGR");
  mkCoin 7825267 0x80776773 (B "OBSR") (B "OBServer");
  mkCoin 8163271 0x807c8fc7 (B "AFS") (B "ANFS");
  mkCoin 15118976 0x80e6b280 (B "XDS") (B "XDS");
  mkCoin 61717561 0x83adbc39 (B "AQUA") (B "Aquachain");
  mkCoin 88888888 0x854c5638 (B "HATCH") (B "Hatch");
  mkCoin 91927009 0x857ab1e1 (B "kUSD") (B "kUSD");
  mkCoin 99999996 0x85f5e0fc (B "GENS") (B "GENS");
  mkCoin 99999997 0x85f5e0fd (B "EQ") (B "EQ");
  mkCoin 99999998 0x85f5e0fe (B "FLUID") (B "Fluid Chains");
  mkCoin 99999999 0x85f5e0ff (B "QKC") (B "QuarkChain");
  mkCoin 11259375 0x80abcdef (B "LBR") (B "0L");
  mkCoin 608589380 0xa4465644 (B "FVDC") (B "ForumCoin");
  mkCoin 1179993420 0xc655454c (B "") (B "Fuel")
].

(** The states init can leave the package in: bip44/coins.go:1151-1165. *)
Definition booted (R : Registry) : Prop := exists sorted, sort_result RegCoins0 sorted /\ R = init_coins sorted.
