{"id": "C01", "title": "Mnemonic round trip", "statement": "For every entropy of 16, 20, 24, 28 or 32 bytes, EntropyFromMnemonic(NewMnemonic(e)) returns exactly e (leading zero bytes included), whenever the active word list has 2048 distinct, non-empty, whitespace-free words; in particular for each of the ten bundled lists.", "quantifier": "all entropies, all such word lists, all sha256 functions", "why_tests_cant": "2^256 entropies; padding and masking bugs hide in rare leading-zero values", "anchors": ["bip39/bip39.go:NewMnemonic", "bip39/bip39.go:EntropyFromMnemonic", "bip39/bip39.go:addChecksum", "bip39/bip39.go:padByteSlice"]}
{"id": "C02", "title": "NewMnemonic computes the BIP-39 sentence", "statement": "NewMnemonic(e) succeeds iff e has 16/20/24/28/32 bytes, and then returns, joined by single spaces, the words selected by cutting the bit string (bits of e) ++ (first |e|*8/32 bits of SHA256(e)) into 11-bit groups; 12/15/18/21/24 words respectively; otherwise it returns ErrEntropyLengthInvalid. It never panics with a list of at least 2048 words.", "quantifier": "all byte slices, all word lists with at least 2048 entries", "why_tests_cant": "the bit-level definition and the big-integer implementation can only be compared on samples by tests", "anchors": ["bip39/bip39.go:NewMnemonic", "bip39/bip39.go:addChecksum", "bip39/bip39.go:validateEntropyBitSize"]}
{"id": "C03", "title": "EntropyFromMnemonic accepts exactly the BIP-39 sentences", "statement": "For every text, EntropyFromMnemonic succeeds with e iff e is an allowed-size entropy and the whitespace-separated words of the text are exactly the words of NewMnemonic(e); IsMnemonicValid is true iff such an e exists. Hence two texts with the same decoded entropy have the same words.", "quantifier": "all texts (arbitrary bytes), all entropies", "why_tests_cant": "acceptance of an invalid sentence can only be excluded by considering every sentence", "anchors": ["bip39/bip39.go:EntropyFromMnemonic", "bip39/bip39.go:IsMnemonicValid", "bip39/bip39.go:splitMnemonicWords"]}
{"id": "C04", "title": "Checksum strength: number of valid last words", "statement": "For every choice of the first n-1 words (n = 12,15,18,21,24) exactly 2^(11-n/3) of the 2048 list words complete it to a sentence that EntropyFromMnemonic accepts.", "quantifier": "all prefixes of list words", "why_tests_cant": "2048^23 prefixes", "anchors": ["bip39/bip39.go:EntropyFromMnemonic"]}
{"id": "C05", "title": "MnemonicToByteArray", "statement": "On any text, MnemonicToByteArray(m,true) equals EntropyFromMnemonic(m). Without raw, for a sentence with single spaces it returns entropy||checksum as a right-aligned big-endian array of |e|+1 bytes, for every entropy including ones with leading zeros. With other whitespace (which EntropyFromMnemonic accepts) the returned array may have a different length: its length depends on strings.Split, not strings.Fields (deviation, witness proved).", "quantifier": "all texts and entropies", "why_tests_cant": "length bugs only show on rare values or unusual whitespace", "anchors": ["bip39/bip39.go:MnemonicToByteArray"]}
{"id": "C06", "title": "Error classes of EntropyFromMnemonic", "statement": "For every text: ErrInvalidMnemonic iff the number of whitespace-separated words is not 12/15/18/21/24; otherwise a word-not-found error naming the first unknown word iff some word is not in the list; otherwise ErrChecksumIncorrect iff the checksum bits differ from the SHA-256 bits; it never panics for a list of at most 2048 words.", "quantifier": "all texts", "why_tests_cant": "error precedence over every input", "anchors": ["bip39/bip39.go:EntropyFromMnemonic", "bip39/bip39.go:splitMnemonicWords"]}
{"id": "C07", "title": "Whitespace: validity ignores it, the seed does not", "statement": "EntropyFromMnemonic(m) depends only on the list of whitespace-separated words of m, for every text m. NewSeed(m) however is computed from the raw bytes of m, so two texts that are equally valid and have the same entropy can give different seeds (deviation from the intuition that re-spacing a mnemonic is harmless; witness proved; for every hash function the two seeds agree only if PBKDF2 collides on the two texts).", "quantifier": "all texts", "why_tests_cant": "tests sample spellings only", "anchors": ["bip39/bip39.go:EntropyFromMnemonic", "bip39/bip39.go:NewSeed", "util/util.go:DeriveSeedFromMnemonic"]}
{"id": "C08", "title": "Seed gating", "statement": "NewSeedWithErrorChecking and DeriveSeedFromMnemonic succeed iff IsMnemonicValid, and then return NewSeed of the unmodified text (hex-encoded, 128 characters, for the latter); the seed is always 64 bytes and for a fixed mnemonic depends only on the byte string \"mnemonic\"+password.", "quantifier": "all texts and passwords", "why_tests_cant": "all inputs", "anchors": ["bip39/bip39.go:NewSeedWithErrorChecking", "bip39/bip39.go:NewSeed", "util/util.go:DeriveSeedFromMnemonic"]}
{"id": "C09", "title": "Word list lookup after any history", "statement": "After any sequence of SetWordList calls, GetWordIndex(w) returns (i,true) with i the last position of w in the last list set, and (0,false) iff w is not in it; for a duplicate-free list this is the inverse of indexing GetWordList().", "quantifier": "all histories of SetWordList calls, all words", "why_tests_cant": "unbounded histories", "anchors": ["bip39/bip39.go:SetWordList", "bip39/bip39.go:GetWordIndex", "bip39/bip39.go:GetWordList"]}
{"id": "C10", "title": "Word list aliasing", "statement": "SetWordList keeps the caller's slice and GetWordList returns it, so a later write through that slice changes which sentence NewMnemonic produces but not which words EntropyFromMnemonic accepts: the round trip can break (deviation, witness proved). As long as no such write happens, every state reachable by any history keeps list and map consistent.", "quantifier": "all histories of SetWordList and element writes", "why_tests_cant": "aliasing histories are not enumerable", "anchors": ["bip39/bip39.go:SetWordList", "bip39/bip39.go:GetWordList"]}
{"id": "C11", "title": "Concurrent SetWordList", "statement": "SetWordList updates the list and the reverse map in separate unsynchronised steps. Every interleaving of a reader that runs entirely before or after a SetWordList sees a consistent pair; an interleaving in between sees the new list with the old or a partially filled map (deviation, witness proved).", "quantifier": "all interleavings of one writer with readers", "why_tests_cant": "schedules", "anchors": ["bip39/bip39.go:SetWordList"]}
{"id": "C12", "title": "NewEntropy", "statement": "NewEntropy(n) succeeds iff n is one of 128,160,192,224,256 (for every int, negative included) and then returns n/8 bytes; when the system random source delivers, these are exactly the delivered bytes. A failing random source is not reported: the undelivered bytes are zero and the error is dropped (deviation, witness proved).", "quantifier": "all ints, all behaviours of the random source", "why_tests_cant": "failure of the random source cannot be tested; all ints", "anchors": ["bip39/bip39.go:NewEntropy", "bip39/bip39.go:validateEntropyBitSize"]}
{"id": "C13", "title": "GenerateMnemonic", "statement": "For wordsCount in {12,15,18,21,24} and every behaviour of the random source GenerateMnemonic returns a sentence with exactly that many words that IsMnemonicValid accepts and whose entropy is the random bytes; for every other byte value it returns ErrInvalidMnemonicWordsCount.", "quantifier": "all 256 word counts, all random byte strings", "why_tests_cant": "random source", "anchors": ["util/util.go:GenerateMnemonic"]}
{"id": "C14", "title": "Bundled word lists are fit for use", "statement": "Each of the ten bundled lists passes its own CRC-32 start-up check (no panic at package initialisation) and consists of 2048 pairwise distinct, non-empty words without any Unicode white space; hence C01-C06 apply to each.", "quantifier": "all ten lists, all word pairs", "why_tests_cant": "the pairwise facts are the hypothesis of the universal theorems", "anchors": ["bip39/wordlists/english.go", "bip39/wordlists/japanese.go", "bip39/wordlists/korean.go"]}
{"id": "C15", "title": "Serialize/Deserialize round trip", "statement": "For every Key that is not all zero, Deserialize(Serialize(k)) = (k,nil), B58Deserialize(k.B58Serialize()) = (k,nil), and Serialize returns 82 bytes: the 78 key bytes followed by the first four bytes of SHA256(SHA256(key)). Distinct keys have distinct serialisations and distinct strings.", "quantifier": "all 78-byte keys", "why_tests_cant": "2^624 keys", "anchors": ["bip32/bip32.go:Serialize", "bip32/bip32.go:Deserialize", "bip32/bip32.go:B58Serialize", "bip32/bip32.go:B58Deserialize"]}
{"id": "C16", "title": "Deserialize accepts exactly checksummed 82-byte strings", "statement": "For every byte slice: Deserialize returns nil error iff the length is 82 and the last four bytes are the double-SHA256 checksum of the first 78; wrong length gives ErrSerializedKeyWrongSize, wrong checksum ErrInvalidChecksum; it never panics. B58Deserialize(s) succeeds with k only if s is the canonical base58 text of k: re-encoding returns s itself (except for the all-zero key, which B58Serialize maps to the empty string).", "quantifier": "all byte slices, all strings", "why_tests_cant": "all inputs", "anchors": ["bip32/bip32.go:Deserialize", "bip32/bip32.go:B58Deserialize", "bip32/bip32.go:B58Serialize"]}
{"id": "C17", "title": "Key.IsValid means non-zero", "statement": "Key.IsValid() is true iff some byte of the key is non-zero. It therefore accepts extended keys BIP-32 declares invalid: private key 0 or >= n, a public point off the curve, version/key-kind mismatch, depth 0 with non-zero parent (deviation, witnesses proved).", "quantifier": "all keys", "why_tests_cant": "all keys", "anchors": ["bip32/bip32.go:IsValid"]}
{"id": "C18", "title": "Base58 codec", "statement": "base58 Decode(Encode(b)) = b for every byte string; for every text over the base58 alphabet Encode(Decode(s)) = s; any other text decodes to the empty string.", "quantifier": "all byte strings, all texts", "why_tests_cant": "all inputs", "anchors": ["github.com/btcsuite/btcutil/base58 (dependency used by bip32/bip32.go:B58Serialize)", "bip32/bip32.go:B58Deserialize"]}
{"id": "C19", "title": "NewMasterKey follows BIP-32", "statement": "For every seed, with I = HMAC-SHA512(\"Bitcoin seed\", seed): NewMasterKey fails with ErrInvalidPrivateKey iff parse256(IL) is 0 or >= n, and otherwise returns version xprv, depth 0, zero fingerprint and child number, chain code IR, key 0x00||IL.", "quantifier": "all seeds", "why_tests_cant": "probability 2^-127 branch", "anchors": ["bip32/bip32.go:NewMasterKey", "bip32/utils.go:ValidatePrivateKey"]}
{"id": "C20", "title": "CKDpriv", "statement": "For every private extended key with scalar k in [1,n-1], registered version and every 32-bit index i, whenever BIP-32 defines the child (IL < n, k_i <> 0), NewChildKey returns exactly it: key (IL+k) mod n, chain code IR, depth+1, fingerprint = first 4 bytes of HASH160(serP(k*G)), child number i, same version.", "quantifier": "all parent keys, indices, HMAC functions", "why_tests_cant": "all keys and indices", "anchors": ["bip32/bip32.go:NewChildKey", "bip32/bip32.go:getIntermediary", "bip32/utils.go:addPrivateKeys"]}
{"id": "C21", "title": "CKDpub", "statement": "For every public extended key holding a point K on the curve, registered version and every i < 2^31, whenever BIP-32 defines the child (IL < n, sum not infinity) and IL <> 0, NewChildKey returns exactly serP(IL*G + K) with the BIP-32 chain code, depth, fingerprint and number.", "quantifier": "all public parents and indices", "why_tests_cant": "all keys and indices", "anchors": ["bip32/bip32.go:NewChildKey", "bip32/utils.go:addPublicKeys", "bip32/utils.go:ExpandPublicKey", "bip32/utils.go:compressPublicKey"]}
{"id": "C22", "title": "Public and private derivation commute", "statement": "For every private extended key and non-hardened index with (IL mod n) <> 0: if NewChildKey on the private key succeeds, then NewChildKey on its PublicKeyExtended succeeds and equals PublicKeyExtended of the private child.", "quantifier": "all parents, indices, HMAC functions", "why_tests_cant": "relies on the elliptic-curve group law over all points", "anchors": ["bip32/bip32.go:NewChildKey", "bip32/bip32.go:PublicKeyExtended", "bip32/utils.go:addPublicKeys"]}
{"id": "C23", "title": "Watch-only derivation along any path", "statement": "Iterating C22: for every list of non-hardened indices, deriving from the public key gives the public keys of the private derivation.", "quantifier": "all index lists of any length", "why_tests_cant": "unbounded depth", "anchors": ["bip32/bip32.go:NewChildKey", "bip32/bip32.go:PublicKeyExtended"]}
{"id": "C24", "title": "No hardened child from a public key", "statement": "For every key whose byte 45 is non-zero and every i >= 2^31, NewChildKey returns ErrHardenedChildPublicKey and an all-zero key, whatever the other bytes.", "quantifier": "all keys and indices", "why_tests_cant": "all inputs", "anchors": ["bip32/bip32.go:NewChildKey"]}
{"id": "C25", "title": "Returned private keys are usable", "statement": "Whenever NewMasterKey or NewChildKey on a private key returns nil error, the result is private, its scalar is in [1,n-1], its public key is a point on the curve, and NewChildKey/PublicKeyExtended on it do not fail for key-format reasons. For public parents this fails: when IL*G = -K the returned key is 02||0...0, not a point, with nil error (deviation, proved for a hash that hits the case).", "quantifier": "all parents, indices, hashes", "why_tests_cant": "probability 2^-127 branches", "anchors": ["bip32/bip32.go:NewChildKey", "bip32/utils.go:ValidatePrivateKey", "bip32/utils.go:validateChildPublicKey"]}
{"id": "C26", "title": "Over-range intermediate scalars", "statement": "BIP-32 requires rejecting an index with IL >= n. NewChildKey does not: it uses IL mod n. Proved: for every parent the result with IL >= n equals the result the formula gives for IL mod n, never an error for that reason (deviation).", "quantifier": "all parents and hashes with IL >= n", "why_tests_cant": "probability 2^-127 branch", "anchors": ["bip32/bip32.go:NewChildKey", "bip32/utils.go:addPrivateKeys"]}
{"id": "C27", "title": "Depth byte", "statement": "After NewChildKey succeeds, depth(child) = (depth(parent)+1) mod 256; so for the first 255 levels depth counts derivations, and a depth-255 parent silently yields a child with depth 0, indistinguishable in depth from a master key (deviation from BIP-32, proved for every such parent).", "quantifier": "all keys", "why_tests_cant": "needs 256 chained derivations", "anchors": ["bip32/bip32.go:NewChildKey", "bip32/bip32.go:setDepth"]}
{"id": "C28", "title": "Neuter", "statement": "PublicKeyExtended never fails; it is idempotent on keys with registered versions; it leaves depth, fingerprint, child number and chain code unchanged; for a private key the result is serP(k*G) with the public version paired with the key's version (xpub when unregistered); two private keys with scalars k and -k mod n differ in output, i.e. the map k -> public key bytes is injective on [1,n-1].", "quantifier": "all keys", "why_tests_cant": "all keys", "anchors": ["bip32/bip32.go:PublicKeyExtended", "bip32/utils.go:publicKeyForPrivateKey"]}
{"id": "C29", "title": "Version tables do not depend on map iteration order", "statement": "init() ranges over a Go map in random order and later code uses element [0] of the resulting slices. For every iteration order: the version chosen by PublicKeyExtended and NewChildKey is the same, each private flag has exactly one public flag and vice versa, and HDVersionBytesSlice is a permutation of the same 29 entries.", "quantifier": "all iteration orders of the 15-entry map", "why_tests_cant": "15! orders", "anchors": ["bip32/reg_ver_bytes.go:init", "bip32/bip32.go:PublicKeyExtended", "bip32/bip32.go:NewChildKey"]}
{"id": "C30", "title": "Human-readable prefixes", "statement": "For every key carrying version v, its base58 string starts with the same four characters; for each registered VersionBytes entry these are the documented PvKeyPrefix/PubKeyPrefix, except the Nexa, Nexa testnet and Vertcoin entries, for which they never match (deviation, proved).", "quantifier": "all keys with each version", "why_tests_cant": "2^592 keys per version", "anchors": ["bip32/reg_ver_bytes.go:VersionBytes", "bip32/bip32.go:B58Serialize"]}
{"id": "C31", "title": "Purpose and coin accessors", "statement": "For every VersionBytes value whose whitespace-free path is m/<a>'/<b>' with 1-8 digits each, PurposeVal/CoinVal return these numbers (< 2^31) and PurposeValFull/CoinValFull return them plus 2^31 without overflow; an accessor succeeds only on such a path, except that the other component may be empty; none of them panics. All registered entries succeed and sit in the Purpose*/CoinType tables under their own value, whatever the iteration order. Because the regular expression allows zero digits, the accessors do not always fail together: for m/'/5' IsValid holds, PurposeVal fails and CoinVal returns 5 (deviation, witness proved).", "quantifier": "all VersionBytes values", "why_tests_cant": "all path strings", "anchors": ["bip32/reg_ver_bytes.go:PurposeVal", "bip32/reg_ver_bytes.go:CoinVal", "bip32/reg_ver_bytes.go:IsValid"]}
{"id": "C32", "title": "Unregistered versions", "statement": "NewChildKey on a key whose version is not registered for its kind (private/public) returns ErrUnSupportedHDVersionBytes and an all-zero key for every index allowed for the kind; the error is never reported for registered ones.", "quantifier": "all keys, all indices", "why_tests_cant": "all versions", "anchors": ["bip32/bip32.go:NewChildKey"]}
{"id": "C33", "title": "Public key compression", "statement": "For every point of secp256k1 other than infinity, ExpandPublicKey(compress(P)) = P; for every 33-byte key with first byte 2 or 3 whose x < p is the abscissa of a curve point, compress(ExpandPublicKey(key)) = key. For an x that is not, ExpandPublicKey returns y = 0 or y = p with no error (deviation, witness proved). validateChildPublicKey refuses exactly x = 0 and keys with first byte 2 whose x is not on the curve; such an x with another first byte is accepted (deviation).", "quantifier": "all points, all 33-byte strings", "why_tests_cant": "2^256 points", "anchors": ["bip32/utils.go:ExpandPublicKey", "bip32/utils.go:compressPublicKey", "bip32/utils.go:validateChildPublicKey"]}
{"id": "C34", "title": "Leaking a non-hardened child", "statement": "From an extended public key and the private key of any of its non-hardened children the parent private key is determined: k = (k_i - IL) mod n with IL computable from the public key alone. For hardened children the HMAC input contains the parent private key.", "quantifier": "all parents, indices", "why_tests_cant": "security relation over all keys", "anchors": ["bip32/bip32.go:NewChildKey", "bip32/bip32.go:getIntermediary"]}
{"id": "C35", "title": "Path grammar", "statement": "IsValid/ValuesAtDepth accept a path iff, after deleting the white-space bytes tab, LF, FF, CR and space, it is m or M followed by components /digits' and then components /digits, every number fits in int, and every primed number is < 2^31 after truncation to 32 bits.", "quantifier": "all strings", "why_tests_cant": "all strings", "anchors": ["bip32/path.go:PathRegex", "bip32/path.go:ValuesAtDepth", "bip32/path.go:IsValid"]}
{"id": "C36", "title": "Path values", "statement": "On success ValuesAtDepth returns 0 followed by one value per component: the number, plus 2^31 if primed - provided every number is < 2^32. Larger numbers are silently reduced mod 2^32, so m/4294967296 is accepted as m/0 (deviation, witness proved).", "quantifier": "all strings", "why_tests_cant": "all strings", "anchors": ["bip32/path.go:ValuesAtDepth"]}
{"id": "C37", "title": "Path formatting", "statement": "String/Formatted delete white space only, are idempotent, and do not change validity or values; for every list of hardened values followed by non-hardened values, the printed path parses back to exactly these values.", "quantifier": "all strings, all value lists", "why_tests_cant": "all value lists", "anchors": ["bip32/path.go:String", "bip32/path.go:Formatted", "bip32/path.go:ValuesAtDepth"]}
{"id": "C38", "title": "ValueAtDepth", "statement": "ValueAtDepth(b) never panics; for valid paths with at most 254 components it returns ValuesAtDepth()[b] iff b is within range, else an error. With 255 components it rejects every depth. For any number of components the range is the number of values modulo 256: below it the value is returned, from it on an error (deviation, proved).", "quantifier": "all paths, all bytes", "why_tests_cant": "depth >= 255 never tested", "anchors": ["bip32/path.go:ValueAtDepth"]}
{"id": "C39", "title": "ReplaceValueAtDepth", "statement": "ReplaceValueAtDepth never panics. The depths in range are those below the number of values modulo 256; for any other depth it returns the path unchanged with ErrUnSupportedOrInvalidPath. For a depth b >= 1 in range the result differs from the whitespace-free input only in component b, and if the result is a valid path its values are the old ones with position b replaced by val. The result is a valid path exactly when the new value keeps the hardened components first. Otherwise, and always for depth 0, it returns an invalid path with nil error (deviation, proved).", "quantifier": "all paths, depths, values", "why_tests_cant": "all inputs", "anchors": ["bip32/path.go:ReplaceValueAtDepth"]}
{"id": "C40", "title": "RootKeyFromSeed", "statement": "RootKeyFromSeed(s) succeeds iff s is hex text of at least 16 bytes and BIP-32 master generation succeeds, and then returns NewMasterKey of the decoded bytes; short or non-hex input is reported and returns a zero key. If master generation fails the function panics on a nil pointer instead of returning the error (deviation, proved for every hash that hits the case).", "quantifier": "all strings, all HMAC functions", "why_tests_cant": "probability 2^-127 branch", "anchors": ["util/util.go:RootKeyFromSeed"]}
{"id": "C41", "title": "DeriveBIP32Result is the chain of child derivations", "statement": "For a valid private depth-0 root and a valid path with values [0,v1..vm], DeriveBIP32Result returns m+1 entries, entry 0 the root with path m, entry j the result of NewChildKey(vj) applied to the key of entry j-1; results for a path extension extend the results for the path; spacing and m/M do not matter. Invalid roots and paths are rejected.", "quantifier": "all roots, all paths", "why_tests_cant": "unbounded depth", "anchors": ["util/util.go:DeriveBIP32Result"]}
{"id": "C42", "title": "DeriveBIP32Result never reports derivation failures", "statement": "Errors of NewChildKey are discarded. In particular a depth-0 private root with an unregistered version yields all-zero keys and nil error for every non-empty path (deviation, proved for all such roots and paths). For registered versions, if no entry hits an invalid scalar, all entries are valid private keys at depth j mod 256 with child number vj.", "quantifier": "all roots, all paths", "why_tests_cant": "all roots", "anchors": ["util/util.go:DeriveBIP32Result", "bip32/bip32.go:NewChildKey"]}
{"id": "C43", "title": "Paths reported by DeriveBIP32Result", "statement": "Entry j's Path, when accepted by ValuesAtDepth, parses to [0,v1..vj]; it is accepted iff the hardened values among v1..vj come first. A path such as m/0/2147483648 is accepted as input but yields an entry path m/0/0' that the library itself rejects (deviation, witness proved).", "quantifier": "all roots, all paths", "why_tests_cant": "all paths", "anchors": ["util/util.go:DeriveBIP32Result", "bip32/path.go:ValuesAtDepth"]}
{"id": "C44", "title": "GenerateRange", "statement": "For start < end, GenerateRange returns end-start entries where entry j is NewChildKey(start+j) applied to the previous entry, i.e. a chain of ever deeper keys, not the siblings Path/start .. Path/(end-1) (deviation, witness proved). start = end is rejected; start > end is accepted and produces no entries and no error (deviation, proved for all such ranges).", "quantifier": "all ranges, keys, paths", "why_tests_cant": "2^64 ranges", "anchors": ["util/key_path.go:GenerateRange"]}
{"id": "C45", "title": "AddrHex", "statement": "For every key, AddrHex is the hex of the last 20 bytes of Keccak256(min(x)||min(y)) where min drops leading zero bytes; it equals the Ethereum address of the public key whenever both coordinates are >= 2^248, and is computed from a shorter input otherwise (deviation; a private key for which the result differs from the Ethereum address is exhibited with the real Keccak).", "quantifier": "all keys", "why_tests_cant": "1 key in 128", "anchors": ["util/key_path.go:AddrHex"]}
{"id": "C46", "title": "AddrP2SH", "statement": "For every key and prefix byte AddrP2SH returns a non-empty base58check text that decodes to prefix || HASH160(public key) || checksum; prefix and hash are recoverable, and it is the pay-to-public-key-hash encoding, no script being hashed.", "quantifier": "all keys, all prefixes", "why_tests_cant": "all keys", "anchors": ["util/key_path.go:AddrP2SH"]}
{"id": "C47", "title": "Hex accessors", "statement": "PrivateKeyHex is the 64-digit hex of the scalar for private keys and empty for public ones; PublicKeyHex decodes to the 33 public key bytes and is the same for a key and its PublicKeyExtended.", "quantifier": "all keys", "why_tests_cant": "all keys", "anchors": ["bip32/bip32.go:PrivateKeyHex", "bip32/bip32.go:PublicKeyHex"]}
{"id": "C48", "title": "Coin registry after init", "statement": "For every order in which the unstable sort may leave coins with equal names: after init every coin in RegCoins satisfies IsValid, the path components are unchanged, RegBip44CoinsTypeToValMap[t] and RegBip44CoinsPathCompToValMap[t+2^31] return the same coin with Type t for every registered type, and nothing else is registered.", "quantifier": "all outcomes of the unstable sort, all lookups", "why_tests_cant": "unspecified sort order", "anchors": ["bip44/coins.go:init", "bip44/coins.go:RegCoins", "bip44/coin.go:IsValid"]}
{"id": "C49", "title": "Coin lookup by name", "statement": "RegBip44CoinsNameToValMap[name] returns a coin with that name for every registered name, but seven names are registered twice, so for those one coin is unreachable by name, and which one depends on the unspecified order left by the unstable sort (deviation, witness orders proved).", "quantifier": "all outcomes of the unstable sort", "why_tests_cant": "unspecified sort order", "anchors": ["bip44/coins.go:init"]}
{"id": "C50", "title": "Coin.IsValid", "statement": "Coin.IsValid is true iff name or symbol contains a non-space character, Type < 2^31 and PathComponent = Type + 2^31 without wrap-around.", "quantifier": "all coins", "why_tests_cant": "all values", "anchors": ["bip44/coin.go:IsValid"]}
{"id": "C51", "title": "SLIP-44 import", "statement": "The table importer skips every row whose path component is written in hexadecimal, because it parses that field in base 10: for any file whose rows are all of that form (as slip-0044.md) it emits no coin (deviation, proved for all such rows).", "quantifier": "all markdown rows", "why_tests_cant": "all files", "anchors": ["bip44/script.go:generateFileFromSlip44MD"]}
{"id": "C52", "title": "Caller memory: Deserialize", "statement": "Deserialize never changes the bytes of its argument; but if len(data) < 82 <= cap(data) it overwrites the caller's backing array between len and 82 with zeros (deviation, witness proved); in every other case no memory reachable by the caller changes.", "quantifier": "all slices with any capacity and aliasing", "why_tests_cant": "aliasing", "anchors": ["bip32/bip32.go:Deserialize"]}
{"id": "C53", "title": "Caller memory: checksums and serialisation", "statement": "AddChecksumDblSha256ToBytes writes into the caller's array iff cap(data) >= len(data)+4; Serialize never modifies the key and returns memory not shared with it.", "quantifier": "all slices", "why_tests_cant": "aliasing", "anchors": ["bip32/utils.go:AddChecksumDblSha256ToBytes", "bip32/bip32.go:Serialize"]}
{"id": "C54", "title": "UI: selected tab in range", "statement": "In every state reachable by any sequence of edits, clicks and frames, the index used to read the displayed key is within the list of tabs (no index panic).", "quantifier": "all event sequences", "why_tests_cant": "event histories", "anchors": ["examples/ui/one/main.go:loop", "examples/ui/one/main.go:onKeyPathChange"]}
{"id": "C55", "title": "UI: root key field", "statement": "After every frame the root-key text variable equals the text field, and unless the user's text failed to decode, it is the base58 text of the generator's root key.", "quantifier": "all event sequences", "why_tests_cant": "event histories", "anchors": ["examples/ui/one/main.go:onRootKeyStrChange", "examples/ui/one/main.go:loop"]}
{"id": "C56", "title": "UI: stale results", "statement": "When the user replaces the root key by text that does not decode, the root key is reset but the displayed keys are not recomputed: private keys of the previous wallet remain on screen (deviation, witness proved). After every other change handler the displayed keys are DeriveBIP32Result of the current root key and path.", "quantifier": "all event sequences", "why_tests_cant": "event histories", "anchors": ["examples/ui/one/main.go:onRootKeyStrChange", "examples/ui/one/main.go:onKeyPathChange"]}
{"id": "C57", "title": "UI: selection lost", "statement": "Once the tab list has been empty after a recomputation the selected index is -1, and stays negative through any sequence of edits until the user clicks a tab or the right arrow, so valid results are not displayed (deviation, proved).", "quantifier": "all event sequences", "why_tests_cant": "event histories", "anchors": ["examples/ui/one/main.go:onKeyPathChange"]}
{"id": "C58", "title": "No Unicode normalisation", "statement": "Neither mnemonics nor passphrases are normalised (BIP-39 asks for NFKD). The bundled Spanish list stores accented words decomposed, so the composed spelling of the same word is rejected as an unknown word in every sentence whose preceding words are known; and a passphrase in composed and decomposed spelling is hashed as given, so the two spellings can give different seeds (deviation, witness proved).", "quantifier": "all sentences containing the composed word; all hash functions", "why_tests_cant": "the tests only use ASCII passphrases and words in the stored spelling", "anchors": ["bip39/bip39.go:NewSeed", "bip39/bip39.go:EntropyFromMnemonic", "bip39/wordlists/spanish.go"]}
{"id": "C59", "title": "Concurrent SetWordList calls", "statement": "Under every schedule of any number of concurrent SetWordList calls the active list is always one of the lists passed in and every map entry is a correct position in one of them; one call alone always ends in the consistent state. Two calls however can both return and leave list B active while the map still holds all words of list A, permanently: sentences over A are accepted although NewMnemonic writes sentences over B (deviation, schedule proved).", "quantifier": "all schedules, all numbers of goroutines, all lists", "why_tests_cant": "schedules", "anchors": ["bip39/bip39.go:SetWordList"]}
{"id": "C60", "title": "Panics in bip32", "statement": "On every input and every 78-byte key, NewMasterKey, NewChildKey, Deserialize, B58Deserialize and Key.IsValid return without panicking, and the returned keys are 78 bytes long. ExpandPublicKey, validateChildPublicKey and addPublicKeys panic exactly on an empty key. setChainCodeUint32 panics on every input (a 4-byte slice is converted to a 32-byte array).", "quantifier": "all inputs, all keys, all iteration orders", "why_tests_cant": "absence of panics on all inputs; setChainCodeUint32 is never called", "anchors": ["bip32/bip32.go:NewChildKey", "bip32/bip32.go:setChainCodeUint32", "bip32/utils.go:ExpandPublicKey"]}
{"id": "C61", "title": "Key field accessors", "statement": "The fields version, depth, fingerprint, child number, chain code and key data partition the 78 bytes of a key: the concatenation of the getters is the key. Each setter replaces exactly its own bytes and leaves all others unchanged; GetVersion inverts SetVersionUint32.", "quantifier": "all keys, all field values", "why_tests_cant": "all byte values of all fields", "anchors": ["bip32/bip32.go:SetVersion", "bip32/bip32.go:GetVersion", "bip32/bip32.go:setPvtKeyBytes"]}
{"id": "C62", "title": "VersionBytes.IsRegistered", "statement": "IsRegistered holds exactly when the whitespace-free path is the path of some registered entry; every registered entry is valid and registered. The version flags are not looked at: for all flag values there is a VersionBytes that is valid and registered (deviation, proved).", "quantifier": "all VersionBytes values", "why_tests_cant": "all flag values", "anchors": ["bip32/reg_ver_bytes.go:IsRegistered", "bip32/reg_ver_bytes.go:IsValid"]}
{"id": "C63", "title": "Coin table agrees with the bundled SLIP-44 file", "statement": "Every entry of RegCoins is a row of the bundled slip-0044.md with the same type, path component, symbol and name, and every row of that file is either such an entry, a bare number, or marked reserved.", "quantifier": "all entries of RegCoins, all rows of slip-0044.md", "why_tests_cant": "1136 entries against 1312 rows; the tests only check IsValid after init", "anchors": ["bip44/coins.go:RegCoins", "bip44/slip-0044.md"]}
{"id": "C64", "title": "Text forms of coins", "statement": "Coin.String determines the coin type, so registered coins have pairwise different texts; in general it does not determine the coin (deviation: symbol and name may be split differently). StringForMD determines the coin when the symbol has no quote; with quotes it does not (the texts are not escaped).", "quantifier": "all coins", "why_tests_cant": "injectivity over all strings", "anchors": ["bip44/coin.go:String", "bip44/coin.go:StringForMD"]}
{"id": "C65", "title": "Version bytes refer to registered coins", "statement": "For every entry of the BIP-32 version-byte registry, the coin component of its path is the type of a registered SLIP-44 coin, found by type and by path component, whose name is the entry's coin name or, for test networks, the shared testnet coin.", "quantifier": "all registry entries, all outcomes of the unstable sort", "why_tests_cant": "relates two packages; no test compares them", "anchors": ["bip32/reg_ver_bytes.go:CoinVal", "bip44/coins.go:init"]}
{"id": "C66", "title": "Caller memory: child derivation and setters", "statement": "Computing the HMAC intermediary of a child writes no memory the caller can reach (the append to the local 33-byte array always reallocates), and every field setter changes exactly the bytes of its field of the key it is called on, whatever memory the key is embedded in.", "quantifier": "all keys in memory, all growth strategies of append", "why_tests_cant": "aliasing", "anchors": ["bip32/bip32.go:getIntermediary", "bip32/bip32.go:SetVersion"]}
{"id": "C67", "title": "UI: mnemonic, seed and root key belong together", "statement": "After every frame of every session: a non-empty mnemonic field determines the seed field (BIP-39 seed of mnemonic and passphrase, empty when the mnemonic is invalid); a non-empty seed field determines the root key; an undecodable root key text goes with empty mnemonic and seed fields; an invalid non-empty mnemonic leaves no keys on the screen.", "quantifier": "all event sequences", "why_tests_cant": "event histories", "anchors": ["examples/ui/one/main.go:onMnemonicChange", "examples/ui/one/main.go:onSeedChange", "examples/ui/one/main.go:onRootKeyStrChange"]}
{"id": "C68", "title": "UI: passphrase erases a wallet", "statement": "Editing the passphrase while the mnemonic field is empty erases the seed, the root key and all displayed keys of a wallet that was entered as a seed or root key (deviation, proved for every such state).", "quantifier": "all event sequences, all passphrases", "why_tests_cant": "event histories", "anchors": ["examples/ui/one/main.go:onMnemonicPassphraseChange"]}
{"id": "C69", "title": "UI: generate button", "statement": "In every reachable state, whatever edits are pending, a click on the generate button leaves a valid mnemonic of the chosen number of words that encodes the bytes of the random source, together with its seed under the passphrase field. The first click of a fresh window gives 12 words from 16 random bytes.", "quantifier": "all event sequences, all random bytes", "why_tests_cant": "event histories, randomness", "anchors": ["examples/ui/one/main.go:onAutoCreateMnemonicClicked", "util/util.go:GenerateMnemonic"]}
{"id": "C70", "title": "UI: edits take effect in the next frame", "statement": "After any session, an edit of one field followed by a frame yields the state derived from the edited text: the mnemonic (also over pending edits of seed and root key), the seed with cleared mnemonic, the root key with cleared mnemonic and seed and recomputed keys, the path with keys recomputed and everything else kept.", "quantifier": "all event sequences, all texts", "why_tests_cant": "event histories", "anchors": ["examples/ui/one/main.go:loop"]}
{"id": "C71", "title": "Slider: easing curve", "statement": "The easing function of the slider is odd, monotone and free of jumps (slope at most 3), keeps [-1,1] inside [-1,1] and fixes -1, 0 and 1; on [0,1] it is the ease-in-out cubic.", "quantifier": "all offsets (exact rationals)", "why_tests_cant": "continuum of values", "anchors": ["examples/ui/one/slider.go:smooth", "examples/ui/one/slider.go:easeInOutCubic"]}
{"id": "C72", "title": "Slider: what a frame draws", "statement": "For every history of frames, pushes, widths and pictures, and every non-decreasing clock, what Slider.Layout draws is a function of the history and the time alone: the current picture at rest, otherwise the picture of the frame before the last push and the current one side by side without a gap, moved by the eased fraction of the time since the push. The buffer of the old picture is never overwritten.", "quantifier": "all frame histories, durations, pictures", "why_tests_cant": "frame timing, aliasing of op buffers", "anchors": ["examples/ui/one/slider.go:Layout"]}
{"id": "C73", "title": "Slider: slides end", "statement": "Once the duration has passed since the last push only the current picture is drawn; until then every frame requests another one, and a slider at rest requests none.", "quantifier": "all frame histories and clocks", "why_tests_cant": "frame timing", "anchors": ["examples/ui/one/slider.go:Layout"]}
{"id": "C74", "title": "UI: page turns", "statement": "In every session of the example program the slider shows exactly the pages given by C72 for the recorded screens; the direction of the slide is that of the last change of selection in the frame; the slider never influences the wallet state or panics.", "quantifier": "all event sequences, clocks and widths", "why_tests_cant": "event histories, frame timing", "anchors": ["examples/ui/one/main.go:loop", "examples/ui/one/slider.go"]}
{"id": "C75", "title": "compareByteSlices decides equality", "statement": "compareByteSlices returns true exactly on equal slices, false exactly on different ones, and never indexes out of range.", "quantifier": "all pairs of byte slices", "why_tests_cant": "infinitely many slices", "anchors": ["bip39/bip39.go:compareByteSlices"]}
{"id": "C76", "title": "Word lists checked at start-up", "statement": "The packages initialise with the ten bundled lists, the English one active. Initialisation panics exactly when the CRC-32 of some list differs from its constant; in particular after any change confined to four consecutive bytes of a list. Deviation: a passed check does not identify the text; five consecutive bytes can be changed without being noticed.", "quantifier": "all list texts and checksums, all alterations", "why_tests_cant": "all alterations of a text", "anchors": ["bip39/bip39.go:init", "bip39/wordlists/english.go:init"]}
{"id": "C77", "title": "Generator owns a copy of its root key", "statement": "After SetRootKey the generator derives from the value passed at the call, whatever the caller then does to its variables; without SetRootKey every derivation fails with ErrInvalidRootKey. Deviation: RootKey returns a pointer to the field itself, a write through it changes later derivations, silently or with an error.", "quantifier": "all histories of calls and writes, all keys and paths", "why_tests_cant": "histories and aliasing", "anchors": ["util/util.go:SetRootKey", "util/util.go:RootKey", "util/util.go:DeriveBIP32Result"]}
{"id": "C78", "title": "Generator beside concurrent SetRootKey", "statement": "A call of DeriveBIP32Result that no SetRootKey disturbs derives from the key last set. In general the first entry and the start of the chain are keys that the field has held; when assignments and reads are taken apart into single bytes, each of their bytes is the byte that some key set had at that place. Deviations: a SetRootKey during the call can make the result mix two wallets (entry 0 of one, children of the other), derive from a key that was never checked, fail with ErrInvalidRootKey although every key set is valid, or succeed with a torn key (chain code of one wallet, private key of the other) that nobody has set.", "quantifier": "all schedules of reads and concurrent setter calls, whole and byte by byte, all keys and paths", "why_tests_cant": "interleavings", "anchors": ["util/util.go:DeriveBIP32Result", "util/util.go:SetRootKey", "bip32/bip32.go:IsValid"]}
{"id": "C79", "title": "DefaultMainnetVersion can be assigned", "statement": "Whatever value d the exported variable DefaultMainnetVersion holds, NewMasterKey succeeds for the same seeds and returns the same key up to the version, which is d's private flag. For a registered d the result is a valid extended key with d's public version and documented prefixes (tprv/tpub for DefaultTestnetVersion). PublicKeyExtended uses d exactly for unregistered versions. With an unregistered d no master key can derive a child, and DeriveBIP32Result returns all-zero keys without an error (deviation).", "quantifier": "all values of the variable, all seeds, keys and paths", "why_tests_cant": "the variable ranges over all VersionBytes values", "anchors": ["bip32/bip32.go:DefaultMainnetVersion", "bip32/bip32.go:NewMasterKey", "bip32/bip32.go:PublicKeyExtended"]}
{"id": "C80", "title": "Version maps with any contents", "statement": "For every contents of the exported maps PvtFlagToHDBytesSlice and PubFlagToHDBytesSlice: a private key whose version has a first entry h derives as BIP-32 says and neuters to h's public flag; a public key derives as BIP-32 says, with h's public flag; without an entry NewChildKey fails with ErrUnSupportedHDVersionBytes; nothing panics. Appending any number of entries, as init does, changes nothing for versions that had one, and makes a new pair usable, with public and private derivation commuting.", "quantifier": "all maps, keys, indices and sequences of registrations", "why_tests_cant": "arbitrary map contents", "anchors": ["bip32/reg_ver_bytes.go:PvtFlagToHDBytesSlice", "bip32/reg_ver_bytes.go:PubFlagToHDBytesSlice", "bip32/bip32.go:NewChildKey", "bip32/bip32.go:PublicKeyExtended"]}
{"id": "C81", "title": "From the words to the addresses, the program computes the wallet of BIP-39 and BIP-32", "statement": "For a sentence that encodes an entropy in the word list, a passphrase, and a path whose components are below 2^31, let the nodes of the BIP-32 key tree along the path be defined (no node is one BIP-32 declares invalid). Then DeriveSeedFromMnemonic gives the BIP-39 seed, RootKeyFromSeed the extended master key, B58Deserialize restores that key from its text, and DeriveBIP32Result lists exactly the extended private keys of the nodes, each with the text of its path (m, then the components up to it, hardened ones with an apostrophe). For every node, the extended public key, both base58 texts, both hexadecimal texts, the base58 address and (for coordinates of 32 bytes) the Ethereum address are those of the standards.", "quantifier": "all primitives of the right output lengths, all tables after init, all word lists of 2048 distinct words, sentences in any spacing, passphrases, path texts of any length and spacing, all paired versions", "why_tests_cant": "A composition over unboundedly many sentences, passphrases and path lengths; the bundled tests check a few seeds and paths.", "anchors": ["util/util.go:DeriveSeedFromMnemonic", "util/util.go:RootKeyFromSeed", "util/util.go:DeriveBIP32Result", "bip32/bip32.go:NewChildKey", "util/key_path.go:AddrHex", "util/key_path.go:AddrP2SH"]}
{"id": "C82", "title": "A watch-only wallet imported from an extended public key's text shows the addresses of the private wallet", "statement": "For a node of the key tree of any seed and a registered pair of versions: the text of the extended public key deserialises to the extended public key of the node. Along indices below 2^31, as long as no IL is zero, each private step and each public step of NewChildKey lead to the extended private and the extended public key of the same BIP-32 node. For every such node AddrHex, AddrP2SH, PublicKeyHex and PublicKeyExtended of the public key equal those of the private key, and PrivateKeyHex of the public key is empty.", "quantifier": "all seeds with a master key, all nodes at any depth, all lists of non-hardened indices, all registered version pairs", "why_tests_cant": "An agreement of two derivations over all keys and unboundedly long index lists.", "anchors": ["bip32/bip32.go:NewChildKey", "bip32/bip32.go:PublicKeyExtended", "bip32/bip32.go:B58Deserialize", "util/key_path.go:AddrHex", "util/key_path.go:AddrP2SH"]}
{"id": "C83", "title": "What the example program shows for a valid mnemonic and path is the wallet of BIP-39 and BIP-32", "statement": "After any session of edits and frames that ends with a frame, if the mnemonic field holds a sentence encoding an entropy, the path field holds a path with components below 2^31, and the BIP-32 nodes along it are defined, then the seed field is the hexadecimal BIP-39 seed of mnemonic and passphrase field, the root field is the base58 text of the master key, the tabs are exactly the extended private keys of the nodes, and the labels on the screen are the texts of the node of the selected tab, the first one being its path.", "quantifier": "all sessions (lists of edits and frames of any length), all primitives, all word lists of 2048 distinct words", "why_tests_cant": "A statement about every reachable state of an interactive program; there are no tests of the program.", "anchors": ["examples/ui/one/main.go:onMnemonicChange", "examples/ui/one/main.go:onPathChange", "util/util.go:DeriveBIP32Result", "bip32/bip32.go:NewChildKey"]}
{"id": "C84", "title": "The library's text functions, as Go writes them, do what the model of the callers assumes", "statement": "strings.Fields (counting loop, ASCII fast path writing into a slice of the counted length, spans for other texts), strings.TrimSpace (ASCII loops at both ends, DecodeLastRuneInString at the right end), strings.Split, strings.Contains and strings.ReplaceAll, written out as in Go 1.22, never index out of range and give the words, trimmed text, pieces, answer and text used in the rest of the model. strconv.Atoi gives the value of every integer text within 64 bits, a range error with the nearest bound for the others, a range error too when the leading digits of a malformed text reach 2^64, and a syntax error with 0 otherwise.", "quantifier": "all byte strings, including invalid UTF-8; all non-empty separators", "why_tests_cant": "Quantifies over all strings; /repo has no tests of malformed UTF-8 or of numbers beyond 64 bits.", "anchors": ["bip39/bip39.go:splitMnemonicWords", "bip44/coin.go:IsValid", "bip44/script.go:generateFileFromSlip44MD", "bip32/path.go:ValuesAtDepth", "bip32/reg_ver_bytes.go:PurposeVal"]}
{"id": "C85", "title": "The hash, HMAC and PBKDF2 objects of the libraries, as written, give the one-shot functions for any sequence of calls", "statement": "The objects returned by sha256.New, sha512.New, ripemd160.New and sha3.NewLegacyKeccak256, written out with their block buffer, chunked Write and padding Sum, never index out of range and never panic; for fewer than 2^61 bytes the digest is that of the concatenation of everything written, however the writes were split. An object of hmac.New(sha512.New, key) under any sequence of Write, Reset and Sum(in) returns at every Sum the bytes handed in followed by the HMAC of what was written since the last Reset. pbkdf2.Key, written out with one hmac object, is PBKDF2 for every iteration count and key length. Hence the calls made in /repo return what the model's record of hash functions says.", "quantifier": "all byte strings below 2^61 bytes, all splittings into writes, all sequences of calls, all iteration counts and key lengths", "why_tests_cant": "Unboundedly many splittings and call sequences; /repo tests only single calls on a few inputs.", "anchors": ["bip32/bip32.go:NewMasterKey", "bip32/bip32.go:getIntermediary", "bip32/utils.go:hashRipeMD160", "bip32/utils.go:HashRipeMD160onSha256", "bip39/bip39.go:NewSeed", "bip39/bip39.go:computeChecksum", "util/key_path.go:AddrHex"]}
{"id": "C86", "title": "The hash functions of the wallet are exactly those of the standards", "statement": "A byte string is the SHA-256 (SHA-512) digest of a message in the sense of FIPS 180-4, with constants taken from the fractional parts of cube and square roots of the first primes, if and only if it is sha256 (sha512) of the model; likewise RIPEMD-160 with constants from roots of 2, 3, 5, 7, Keccak-256 with the rotation offsets of the walk and round constants of the shift register, HMAC of RFC 2104 and PBKDF2 of RFC 8018. Any record of functions that meets these standards has the right output lengths and agrees everywhere with the model's. NewSeed is PBKDF2-HMAC-SHA512 of the mnemonic and \"mnemonic\" followed by the passphrase, 2048 rounds, 64 bytes; NewMasterKey is the extended key made of HMAC-SHA512 of the seed under \"Bitcoin seed\", and fails exactly when the left half is 0 or at least n.", "quantifier": "all messages, keys, passwords, salts and seeds; all functions meeting the standards", "why_tests_cant": "Test vectors cover a handful of inputs; equality with the standard is over all byte strings.", "anchors": ["bip39/bip39.go:NewSeed", "bip39/bip39.go:computeChecksum", "bip32/bip32.go:NewMasterKey", "bip32/bip32.go:getIntermediary", "bip32/utils.go:HashRipeMD160onSha256", "util/key_path.go:AddrHex"]}
{"id": "C87", "title": "Base58, hexadecimal and CRC-32 of the libraries, as written, are the model's and never panic", "statement": "base58.Encode and base58.Decode of btcutil, written out with the big-integer loop, the table of 256 entries, the zero bytes and the exchange of ends, read and write no slice out of range and return what the model's Encode58 and Decode58 return. hex.EncodeToString likewise. hex.DecodeString, which decodes in place, returns bytes b and error e exactly when the text is read as b and e: the bytes of the pairs of digits before the first that is none, and InvalidByteError of the offending character or ErrLength. crc32.ChecksumIEEE, with its eight tables and its 8-byte steps from 16 bytes on, is the bitwise CRC-32 of the model.", "quantifier": "all byte strings of any length", "why_tests_cant": "Unboundedly many texts and lengths, the in-place aliasing, and every table entry.", "anchors": ["bip32/bip32.go:B58Serialize", "bip32/bip32.go:B58Deserialize", "util/util.go:RootKeyFromSeed", "util/key_path.go:AddrP2SH", "bip39/wordlists/english.go:init"]}
{"id": "C88", "title": "The word lists' checksum is the CRC-32 of IEEE 802.3, and which changes of a list it notices", "statement": "A number is the check value that IEEE 802.3 defines for a text (complement the first 32 bits, append 32 zeros, divide by the generator polynomial over GF(2), complement the remainder) if and only if ChecksumIEEE returns it; an init function of package wordlists accepts a text exactly when that value printed in hexadecimal is its literal. A text of the same length that differs from an accepted one only within 32 consecutive bits, at any bit position, or in exactly two bits less than 2^32 - 1 apart, makes init panic.", "quantifier": "all texts, all literals, all bit positions", "why_tests_cant": "A statement about every text and every position of a change; tests evaluate the checksum of ten lists.", "anchors": ["bip39/wordlists/english.go:init", "bip39/wordlists/japanese.go:init", "bip39/wordlists/chinese_simplified.go:init"]}
{"id": "C89", "title": "Machine arithmetic of the slider: rounding is IEEE 754's and the easing curve survives it", "statement": "The model's rounding returns a representable number nearest to the exact value, the one with an even significand of two, and there is only one such number; below 2^127 it does not overflow. For every float32 t between -1 and 1, smooth(t) computed in float32 exists, lies between -1 and 1 and within 2^-21 of the exact curve; it does not decrease when t increases, is exactly -1, 0 and 1 at -1, 0 and 1, and smooth(-t) = -smooth(t). All of this for every choice of fused multiply-adds a Go compiler may make.", "quantifier": "all precisions and exponents, all rationals; all t in [-1,1], all choices of fusing", "why_tests_cant": "There are two thousand million float32 values in the interval and the compiler's choice differs by platform.", "anchors": ["examples/ui/one/slider.go:smooth", "examples/ui/one/slider.go:easeInOutCubic"]}
{"id": "C90", "title": "The slider with float32 arithmetic: where the pictures are after any history of frames", "statement": "For a history of frames in order of time with int64 times and widths up to 2^24, every frame draws either the new picture alone at 0 or the old and the new picture side by side, shifted by a number of pixels that differs from width * eased(min(1, elapsed/duration)) by at most (49 + 3n) 2^-25 of the width and the dropped fraction, n being the frames since the push; by at most one pixel while width*(49+3n) <= 2^25. The frame of the push shows the old picture in place; from frame to frame the pictures never move back; once (1 - 10*2^-25) elapsed/duration >= 1 + n 2^-25 the frame is at rest and the next requests none. It is refuted that the slide is over when its duration has passed (three frames of 100 ms leave the old picture drawn just outside and a frame requested), and that it ends at all: with frames at most 8 ns apart the picture never moves.", "quantifier": "all durations below 2^63 ns, all histories of frames of any length, all pictures, all choices of fusing", "why_tests_cant": "Rounding errors accumulate over unboundedly many frames; the slider has no tests.", "anchors": ["examples/ui/one/slider.go:Layout", "examples/ui/one/slider.go:smooth"]}
{"id": "C91", "title": "The example program with float32 arithmetic in its slider", "statement": "For every session of edits and frames, in order of time, with int64 times and widths between 0 and 2^24: no operation of the slider overflows, the program's fields, tabs and panics are those of the program without the slider, and what the window shows after the last frame is what the slider shows for the history of the session's screens: at rest or at most one pixel from the exact position.", "quantifier": "all sessions of any length, all primitives, all tables and word lists, all choices of fusing", "why_tests_cant": "A statement about every reachable state of an interactive program with floating-point state; there are no tests of the program.", "anchors": ["examples/ui/one/main.go:onMnemonicChange", "examples/ui/one/slider.go:Layout"]}
{"id": "C92", "title": "Addition of the secp256k1 library", "statement": "KoblitzCurve.Add of the pinned decred library, written out down to its 26-bit field words, returns the coordinates of the sum for all curve points, infinity being (0,0); the chord or tangent for all other coordinate pairs below p except (0,0). For all non-negative integers it returns exactly what the model of bip32 uses. For coordinates below 2^256 that are not reduced the sum is that of the residues, except that two different names of one abscissa give (0,0) (deviation, witness proved).", "quantifier": "all points, all integers", "why_tests_cant": "2^512 pairs of points; the exceptional pairs are never met by chance", "anchors": ["bip32/utils.go:addPublicKeys", "go.mod"]}
{"id": "C93", "title": "Base point multiplication of the secp256k1 library", "statement": "KoblitzCurve.ScalarBaseMult of the library, with its scalar words, its reduction modulo n and its byte-point loop written out, returns the coordinates of k G for every byte string k of any length and does not panic, whenever its table holds the multiples of G that it is documented to hold; it returns (0,0) exactly when n divides k. This is what the model of bip32 uses.", "quantifier": "all byte strings, all tables with the documented entries", "why_tests_cant": "2^256 scalars", "anchors": ["bip32/utils.go:publicKeyForPrivateKey", "go.mod"]}
{"id": "C94", "title": "Field words of the secp256k1 library", "statement": "For field values of the documented magnitudes (Add and MulInt up to 60, Negate up to 40, Mul and Square up to 8, Normalize up to 32, Inverse 1) no 32 or 64 bit word overflows and the result stands for the sum, product, negation, square, residue, inverse modulo p, with the documented magnitude; Normalize gives the one representation with 26-bit words of the residue below p; SetByteSlice and Bytes are the big-endian number; Equals, IsZero and IsOne compare numbers.", "quantifier": "all words within the magnitudes", "why_tests_cant": "carries that occur with probability 2^-32 or less", "anchors": ["bip32/utils.go:publicKeyForPrivateKey", "bip32/utils.go:addPublicKeys", "go.mod"]}
{"id": "C95", "title": "Extended public keys whose x is not below p", "statement": "A child of an extended public key whose 32 bytes are x >= p, for a residue on the curve, is the child of the point with the residue (the HMAC taken over the bytes as they are); only when the tweak is a point with that abscissa is the child the encoding of (0,0) without an error. SEC 1 has such keys refused; they are accepted (deviation, witness proved).", "quantifier": "all keys, indices, hash functions", "why_tests_cant": "2^32 + 977 encodings among 2^256", "anchors": ["bip32/bip32.go:NewChildKey", "bip32/utils.go:ExpandPublicKey", "bip32/utils.go:addPublicKeys"]}
{"id": "C96", "title": "The square root of math/big", "statement": "big.ModSqrt, which ExpandPublicKey takes, written out with its Jacobi symbol: the loop of Jacobi ends, the symbol is 0 exactly when the numbers have a common divisor, is multiplicative, obeys quadratic reciprocity, and modulo a prime that is 3 mod 4 is Legendre's; ModSqrt returns nil exactly for non-squares, and otherwise the one root below p that is itself a square. For the prime of the curve it is the square root that the model of ExpandPublicKey uses, and nil means that no point of the curve has the given x.", "quantifier": "all integers, all odd moduli (Jacobi), all primes 3 mod 4 (ModSqrt)", "why_tests_cant": "infinitely many numbers and moduli; the correctness of the symbol is quadratic reciprocity", "anchors": ["bip32/utils.go:ExpandPublicKey"]}
{"id": "C97", "title": "Go's regular expressions", "statement": "Package regexp, written out: the parser turns the three pattern texts of the repository into the trees used here, and any text it accepts into a tree that the rest handles; for every pattern tree with ASCII literals, ordered classes and ordered bounds the simplifier and the compiler produce a program that accepts from a position exactly when the tree describes a piece of the string from there; the backtracking engine and Pike's machine both end without a panic and agree; MatchString answers true exactly when the tree describes some piece starting at a rune boundary. PathRegex.MatchString, on any string, is true exactly for the path grammar; the pattern of VersionBytes.IsValid, which runs on the one-pass engine, exactly for m/a'/b' with at most eight digits each; Path.String removes exactly the five space characters. All three are what the model computes.", "quantifier": "all pattern texts and trees, all strings (short and long, valid UTF-8 or not), all start positions", "why_tests_cant": "infinitely many patterns and strings; strings longer than the backtracker's limit take another engine", "anchors": ["bip32/path.go:Path.String", "bip32/path.go:Path.IsValid", "bip32/reg_ver_bytes.go:IsValid"]}
{"id": "C98", "title": "Word lists of any length and with repetitions", "statement": "For any list given to SetWordList, NewMnemonic on an entropy of an accepted size panics exactly when one of the word numbers of the BIP-39 sentence is not below the length of the list, and otherwise returns the sentence; with fewer than 2048 words the entropies of ones panic. With 2048 words, repeated or not, the sentence of an entropy decodes to it exactly when each of its words stands last in the list at its number, so each list with a repetition has an entropy that is not decoded. With more than 2048 words only the first 2048 are used for writing, but a sentence with a word from behind decodes: an entropy has several sentences, and sentences with 17 bytes of entropy are accepted.", "quantifier": "all word lists, all entropies, all hash functions", "why_tests_cant": "unboundedly many lists; the word lists of the package have 2048 different words", "anchors": ["bip39/bip39.go:SetWordList", "bip39/bip39.go:NewMnemonic", "bip39/bip39.go:EntropyFromMnemonic"]}
{"id": "C99", "title": "NewChildKey on arrays that are no extended keys", "statement": "NewChildKey of a private array with any number s below 2^256 in it returns the explicit child with scalar (I_L + s) mod n, with an error exactly when that is 0; two arrays with numbers equal modulo n have the same non-hardened children; 0 and numbers from n on are not valid keys but are accepted. On a public array with any 33 bytes starting with a non-zero byte it returns a key of the right shape without an error exactly when I_L mod n is not 0; when no point of the curve has the x in it, the result is the chord through (x, 0), or I_L G alone for 02 and zeros; when the first byte is neither 02 nor 03, the point used is the one whose -y is a square.", "quantifier": "all arrays, all indices, all hash functions", "why_tests_cant": "2^624 arrays, most of them not produced by the package", "anchors": ["bip32/bip32.go:NewChildKey", "bip32/utils.go:addPublicKeys", "bip32/utils.go:ExpandPublicKey"]}
{"id": "C100", "title": "The random source", "statement": "crypto/rand.Read written out (io.ReadFull, the getrandom system call in batches, the fallback to the device): for any behaviour of the system it leaves the length of the buffer alone, returns no error exactly when the whole buffer was filled, and then the buffer is what the system call or the device delivered; the bytes behind the written ones are untouched. It ends when each read of the device brings something or fails, and never when the device stays silent. NewSeed returns 256 bytes and reports a failure; its seeds are longer than BIP-32 allows. NewEntropy is the one of C12 for some prefix delivered; with a failing source it returns the bytes that came and zeros without an error.", "quantifier": "all behaviours of system call and device, all buffer sizes, all numbers of calls", "why_tests_cant": "the random source of the test machine does not fail", "anchors": ["bip32/bip32.go:NewSeed", "bip39/bip39.go:NewEntropy"]}
{"id": "C101", "title": "math/big, word by word", "statement": "The unsigned numbers of math/big written out as vectors of 64-bit words: each number has exactly one vector; add, sub, and, or, cmp, shl, shr, products and squares (schoolbook, basicSqr, Karatsuba's method and its cut into blocks), powers with an exponent of one word, division (Moeller-Granlund reciprocals for two words by one, Knuth's algorithm D), setBytes, bytes and expNN with Montgomery's multiplication give the vector of the right number and never panic on the sizes reached; division by zero panics. On them, ModSqrt finds a root below p or reports that there is none, and addPrivateKeys, ExpandPublicKey, compressPublicKey, addChecksum, NewMnemonic, the decoding of a mnemonic, base58.Encode and base58.Decode return what the model on integers returns.", "quantifier": "all numbers, all byte strings", "why_tests_cant": "carries, wrong guesses of quotient digits and final subtractions occur once in 2^64 cases", "anchors": ["bip32/utils.go:addPrivateKeys", "bip32/utils.go:ExpandPublicKey", "bip32/utils.go:compressPublicKey", "bip39/bip39.go:NewMnemonic", "bip39/bip39.go:EntropyFromMnemonic", "bip39/bip39.go:addChecksum"]}
{"id": "C102", "title": "fmt, strings, bytes and encoding/binary as written", "statement": "fmt.Sprintf as Go 1.22 writes it, for the formats of the code, prints exactly the text the format denotes: literal text, decimal and lower-case hexadecimal numbers without leading zeros, two digits per byte, whatever was left in the number buffer of the printer; percent signs in arguments are not interpreted. strings.Join and strings.Repeat (by doubling) give the joined and the repeated text; bytes.Compare is the lexicographic order, and the numeric one on equal lengths; the big-endian reads and writes are inverse and panic on short slices. With them ValidatePrivateKey, the path texts, StringForMD, String of coins, the error text of an unknown word and the init functions of the word lists are what the model says.", "quantifier": "all numbers below 2^64, all strings, all buffer contents", "why_tests_cant": "2^64 numbers, unbounded strings, buffers reused from a pool", "anchors": ["bip32/utils.go:ValidatePrivateKey", "bip32/path.go:ReplaceValueAtDepth", "util/util.go:DeriveBIP32Result", "util/key_path.go:GenerateRange", "bip44/coin.go:StringForMD", "bip39/bip39.go:EntropyFromMnemonic", "bip39/wordlists/english.go:init"]}
{"id": "C103", "title": "The wallet on the libraries as written", "statement": "bip39, bip32 and util written on the library functions as Go 1.22 and the imported packages write them (hash objects fed block by block, math/big on 64-bit words, secp256k1 on field words with the table of byte multiples, regular expressions parsed from their texts and run by the engine chosen for them, fmt, strings, hex, base58, the random source) return exactly what the model says, for every input: keys, children, serialisations, paths, the registry built by init, mnemonics, seeds, addresses and ranges. From any seed, the keys shown for a path are those of BIP-32 computed with the real hash functions, and no call panics on a key, a path or a text.", "quantifier": "all seeds, keys, texts, paths, word lists, map orders, contents of reused buffers", "why_tests_cant": "unbounded inputs and library state; the composition of eight libraries", "anchors": ["bip32/bip32.go:NewChildKey", "bip32/bip32.go:NewMasterKey", "bip32/bip32.go:B58Deserialize", "bip32/path.go:ValuesAtDepth", "bip32/reg_ver_bytes.go:init", "bip39/bip39.go:EntropyFromMnemonic", "bip39/bip39.go:NewMnemonic", "util/util.go:DeriveBIP32Result", "util/util.go:GenerateMnemonic", "util/key_path.go:AddrHex", "util/key_path.go:GenerateRange"]}
{"id": "C104", "title": "sort.Slice, init of bip44 and the import script as written", "statement": "sort.Slice as Go 1.22 writes it returns, for every strict weak order, every slice and every generator used to break patterns, a rearrangement of the slice in order, without an index out of range and without a loop that does not end. So init of bip44 ends in one of the states of C48-C50; which coin each of the seven shared names finds is stated for the order the sort leaves (neither always the first nor always the last of the table). The import script, on the library functions as written, stops by log.Fatal if the embedded file cannot be read and otherwise writes to testing.go exactly the text of C51; it never panics.", "quantifier": "all slices, orders, generators, file contents", "why_tests_cant": "unbounded slices; the heap sort and shuffling branches are reached on rare inputs only", "anchors": ["bip44/coins.go:init", "bip44/script.go:generateFileFromSlip44MD", "bip44/coin.go:StringForMD"]}
{"id": "C105", "title": "The example program on the libraries as written", "statement": "The example program with every library call written out (bip39, bip32, util on the hash objects, math/big, secp256k1, regexp, fmt and crypto/rand of C85-C103): each session of edits and frames returns what the session of the model returns with the same edits and clicks and the bytes the random source delivered; when the reads of the source end, the session ends, and it panics only on a seed that BIP-32 excludes. After a frame the seed shown belongs to the mnemonic and passphrase shown, the root key to the seed, the keys to root key and path, the labels to the selected key. The button shows the BIP-39 sentence of the delivered bytes. Typing a valid mnemonic (or a seed of 16 bytes or more in hex) and a path and selecting tab j shows the path, extended private and public key, private and public key of node j on the BIP-32 path from that seed.", "quantifier": "all sessions, all texts below 2^61 bytes, all behaviours of the random source, all word lists of 2048 different words", "why_tests_cant": "unbounded sessions and a GUI; the composition of the program with nine libraries", "anchors": ["examples/ui/one/main.go:main", "examples/ui/one/main.go:loop", "util/util.go:DeriveBIP32Result", "util/util.go:GenerateMnemonic"]}
{"id": "C106", "title": "The parser of package regexp on every pattern of the operators used in /repo", "statement": "A pattern built from plain and escaped characters, \\d \\s \\w and their complements, bracket classes with ranges, ^ and $, groups and the quantifiers * + ? {m} {m,n}, in its written form, is parsed to a tree that matches exactly the same substrings of every text as the pattern's declared meaning, if every nesting of braces multiplies to at most 1000; otherwise parsing fails. The compiled program searches with that meaning. The three texts compiled by /repo are such patterns.", "quantifier": "all well-formed patterns of at most 1000 bytes, all texts and positions", "why_tests_cant": "unboundedly nested patterns and all texts", "anchors": ["bip32/path.go:22", "bip32/path.go:25", "bip32/reg_ver_bytes.go:75"]}
{"id": "C107", "title": "The example program with its moving pages on the libraries as written", "statement": "The whole example program, every library call written out and the page slider in float32/float64 arithmetic: each session of edits and timed frames is a session of the animated model with the same clicks, times and widths; the wallet shown is that of the program without pages; the window is empty before the first frame, afterwards shows the labels of the selected key at rest, or the old and the new page side by side within one pixel of the exact easing curve; no infinity or NaN arises; it panics only if a seed exists that BIP-32 excludes.", "quantifier": "all sessions with times in order and int64 clocks, all widths up to 2^24, all choices of fused multiply-adds, all random sources, all word lists of 2048 different words", "why_tests_cant": "unbounded sessions of a GUI with rounding errors that add up", "anchors": ["examples/ui/one/main.go:main", "examples/ui/one/main.go:loop", "examples/ui/one/slider.go:Layout"]}
{"id": "C108", "title": "What the compiled pattern reports is a match, with the one-pass engine too", "statement": "For every pattern text the parser accepts, whichever engine the compiler selects - the one-pass program with its rewritten jumps, dispatch tables and literal prefix, the backtracker or Pike's machine - MatchString reports true only if some substring of the text, from a rune boundary on, is described by the pattern. Conversely, for every pattern whose one-pass program passes a stated decidable check of its dispatch tables (the pattern of /repo does), MatchString does not panic and reports true whenever there is such a substring. The one-pass engine then gives the same answer as the general engines on the same program.", "quantifier": "all pattern texts, all searched texts", "why_tests_cant": "unboundedly many programs and texts", "anchors": ["bip32/reg_ver_bytes.go:75", "bip32/reg_ver_bytes.go:76", "bip32/path.go:22"]}
