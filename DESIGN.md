# Formal model of mearaj/bips in Coq 8.16.1

## 1. What is modelled and how

All Go values are modelled by ordinary Gallina data, all functions are total and computable.

| Go | Coq |
|---|---|
| `byte`, `[]byte`, `string` | `Byte.byte`, `list byte` (strings are their bytes; UTF-8 is decoded where Go decodes it) |
| `uint32`, `int`, `big.Int` | `Z`, with the wrap-around (`mod 2^32`, `mod 256`, int64 range of `Atoi`) written out where the code has it |
| `Key [78]byte` | `list byte` of length 78 (`wf_key`) |
| `(T, error)` | `T * option err` (Go returns both; both are kept, because callers here drop errors) |
| panics | explicit `Panic` outcome |
| map iteration order, `sort.Slice` on ties, random source, schedules | universally quantified argument |
| sha256, ripemd160, keccak256, HMAC-SHA512, PBKDF2 | fields of a record `Prims` of functions: theorems hold for *every* `Prims` whose output lengths are right (`prims_ok`, an explicit hypothesis). `RealPrims` is an executable instance written from the standards |
| secp256k1 (decred library) | concrete: binary double-and-add with complete projective formulas over Z mod p (not decred's algorithm); proved equal to repeated affine addition and to decred's own algorithm written out (C92, C93); p is proved prime (Pocklington), the group law is proved |
| base58 (btcutil library) | concrete big-integer algorithm |
| regexp | a derivative matcher on the regular expressions transcribed from the source, proved against the denotational semantics and equal to what the compiler and the engines of Go's package compute (C97) |

Files (under `rocq/theories`): see section 4. `Spec*.v` hold the independent specifications (BIP-39 bit
strings, BIP-32 CKD functions over affine points, path grammar), `Props*.v` hold only the property theorems.

## 2. Plan per property

For each property: what is modelled / how it is proved.

- C01, C02, C03, C04, C06: `bip39.go` function by function over `Z` big integers; specification on bit lists;
  proof by arithmetic characterisation of the big integer loops (value = entropy*2^cs + checksum), division by
  2048 as 11-bit chunks, induction on the word list.
- C05, C07, C08: as above, plus `strings.Split`/`strings.Fields` models; deviations by computed witnesses.
- C09, C10: package state as list + association map; induction over operation histories; writes through the alias as an operation.
- C11: the statements of SetWordList as small steps; all interleavings with a reader by induction on the schedule.
- C79, C80: exported variables of package bip32: the functions with the variable as an argument; lemmas about `NewChildKey`
  that do not assume tables made by `init`.
- C81-C83: composition: the nodes of the BIP-32 key tree as a separate specification (`SpecWallet.v`); the theorems of C03, C08,
  C15, C20, C22, C28, C35, C36, C40, C41, C45-C47 (and C54-C56, C67 for the program) chained by induction on the path.
- C84: text functions of the Go library written out (`GoStrLit.v`) and compared with the model's by induction on the text.
- C85: the hash objects of the libraries as states (buffer, length, chaining value); invariant "the state is that of the
  bytes written so far" over any sequence of writes; `hmac` with its saved pads; `pbkdf2.Key` loop by loop.
- C86: the standards as relations on functions of an index (message schedule, working variables, lanes), with constants
  defined by roots of primes; equality with `Hash.v` by induction on rounds and blocks.
- C87: base58, hex and crc32 written out with their tables, in-place writes and index checks; induction on the text; the eight
  CRC tables by linearity of the shift register.
- C88: CRC-32 as the remainder of IEEE 802.3 (multiples of the generator as a relation); a message read backwards is the shift
  register's input; which changed bits are noticed, from the order of x modulo the generator.
- C12, C13: random source as an argument: the bytes delivered before it stops (the code ignores its count and error).
- C14: lists embedded as text, CRC-32 model; `vm_compute` over the finite lists (the domain is finite), used to discharge the hypotheses of C01-C06.
- C15-C18: big-endian / base58 positional arithmetic, induction on lists.
- C19-C28, C32-C34: BIP-32 specification over affine points; Fp as a field, group law, Fermat, square roots for p = 3 mod 4.
- C29-C31: registry tables as data, theorems over all permutations of the map entries.
- C35-C39: regular expression semantics, decimal printing/parsing by induction.
- C40-C47: `util` package (and the hex accessors of keys) over the above.
- C48-C51, C63, C64: coin table as data; theorems over every order that `sort.Slice` may produce; the reader of
  `slip-0044.md` as a function of the whole text; text forms of coins.
- C52, C53, C66: a heap of byte arrays and Go slices (array, offset, length, capacity) with `append` semantics.
- C54-C57, C67-C70: the Gio example's handlers as a state machine; induction over event lists. Text fields are
  strings; drawing is not modelled.
- C71-C74: the slider as a state machine over rational offsets, a clock and a heap of op buffers; specification by the
  history of frames alone; refinement by an invariant over the history.
- C89: rounding as IEEE 754 says it (nearest representable number, ties to even) against `fround`; monotone roundings and error
  bounds through the easing curve, for every choice of fused multiply-adds.
- C90: the slider with float32 and float64 arithmetic; invariant over histories: offset between two roundings of the exact one,
  the error growing by one unit per frame. C91: the same inside the program.
- C92-C94: the field words (ten of 26 bits), the Jacobian formulas, the scalar words and the byte-point loop of decred's
  `secp256k1` written out; a value of magnitude m stands for an element of the field, every operation keeps that within stated
  magnitudes; formulas against chord and tangent by `field`; loop by induction over the bytes of the scalar.
- C95: consequences for public keys that are not reduced.
- C98: value of a sentence as a number in base 2048 with digits that may exceed it; last occurrence in the list decides the
  digit. C99: the general result of `NewChildKey` on any scalar and any 33 bytes; chord formula with an unreduced second point;
  the root taken by `ModSqrt` is the square one (C96).
- C100: `crypto/rand.Read` as the loops of `io.ReadFull`, `batched` and the fallback to the device; answers of the system call and of
  the device are functions of the call number and the size asked for; what was delivered is an inductive relation.
- C101: a vector of words stands for a number when its words are below 2^64, its top word is not 0 and its value in base 2^64 is
  the number; each routine of `nat` keeps that relation. Division: Knuth's bounds on the guessed digit, Möller and Granlund's
  reciprocal for two words by one; powers: Montgomery's reduction word by word, Newton's iteration for the inverse.
- C102: what a format prints is an inductive relation (literal text, decimal and hexadecimal numerals without leading zeros); the digit
  loops of `fmtInteger` by induction on the free part of the buffer, `Repeat` by doubling, `Compare` as lexicographic order.
- C103: each function of the three packages is written again on the libraries as written and shown to return what its model returns; the
  table of points, the parameters of the curve and the number buffer of fmt are an environment of which only `env_ok` is assumed
  (`GoWholeFacts.v`: 68 bytes of any contents, the table of C93, vectors that stand for p, n and b). The end-to-end theorems of C81 follow for the
  rewritten functions with the SHA-2, RIPEMD-160 and Keccak code in place of the abstract hashes.
- C104: `sort.Slice` as written (pattern-defeating quicksort, its insertion sort, heap sort and pivots) by induction on the length of the range: each step
  rearranges inside its range only, and the element before a range is a lower bound of it, which is what makes `partitionEqual` and the
  unbounded `j >= 1` loop of `partialInsertionSort` right. The generator behind `breakPatterns` is any function.
- C105: the example program with the functions of C103 in place of the model's; a session of it is a session of `Ui.v` with the bytes the random source
  delivered, by induction over the events (invariant: every text shown is short enough for the hash counters), so C54-C57 carry over; the
  two typed sessions are followed through the handlers.
- C106: patterns as trees with a written form and matching as an inductive relation on positions; induction on the tree with the parser's stack:
  what is left on the stack after reading a piece stands for what was there before followed by the piece.
- C107: the frames of C105 with the slider of C90 (machine arithmetic, any fused multiply-adds); a session of it is a session of `FloatSlider.v` at the same
  times, and forgetting the pages gives the session of C105.
- C108: every step of the one-pass program leads within the runs of the compiled one: kept by each round of onePassCopy (which re-targets legs
  of Alts along existing runs), by makeOnePass (dispatch tables contain only the legs, rune tables only the runes of the instruction) and by
  cleanupOnePass; then induction over the engine's steps, the literal prefix included. That the engine misses no match and does not panic is
  proved (`C108_exact`) for every pattern whose one-pass program passes a decidable check, `tables_ok` of `GoRegexpExact.v`: each dispatch of an
  Alt keeps every leaf of the Alt that can read the rune, rune tables are complete, and no cycle goes without reading. The check is ours, not
  /repo's; it succeeds on the one-pass pattern of /repo and on nine others (`C108_tables_sat`). That it succeeds on every one-pass program is not proved.
- C75: induction over the visited prefix. C76: CRC-32 as a linear bijection on 32-bit states; each byte enters at the
  low end, so four bytes act as one 32-bit word: injective (detection) and onto (forgery). C77: invariant over histories
  of calls and writes. C78: reads of the field interleaved with setter calls; induction on the schedule.
- C58: NFC and NFD spellings of accented words and passphrases (no normalisation in the code), by witnesses.
- C59: `SetWordList` as small steps; all schedules of several writers, by induction on the schedule.
- C60: panics: which calls cannot panic for any argument, and the exact arguments on which the others do.
- C61, C62: setters and getters of keys; `IsRegistered`.
- C65: agreement of the two registries, by computation over the (finite) tables.

Properties marked "deviation" are those where the behaviour a user would expect is false of the code; for those the
theorem named `..._refuted` gives the witness and the companion theorem gives the exact true behaviour.
None of the listed properties is inexpressible.

## 3. Trusted base

**Kernel.** Coq 8.16.1's kernel (with its VM for `vm_compute`; `coqchk`, which has no VM, re-checks every module).
No plugin, no axiom, no `Admitted`, no switched-off check.

**Assumptions.** `Print Assumptions` stands beneath every property theorem; each prints "Closed under the global
context". The hash functions are not axioms: they are an explicit argument `H : Prims`, and the hypothesis
`prims_ok H` of the theorems says only that the outputs have the right lengths (32, 20, 64, 32, 64 bytes).
`HashFacts.real_prims_ok` shows that the executable functions of `Hash.v` satisfy it. No theorem assumes collision
resistance or any other cryptographic property. C86 shows that the functions of `Hash.v` are those of FIPS 180-4, RFC 2104,
RFC 8018, the RIPEMD-160 paper and the Keccak reference, written a second time in `SpecHash.v` from the documents (the
constants of SHA-2 and RIPEMD-160 as roots of primes, those of Keccak by its register and walk).

**Environment as arguments.** What the code does not determine is universally quantified: the iteration order of
Go maps (`init_tables ord`, any permutation), the order in which `sort.Slice` leaves equal elements, what the random
source delivers (`rd`), the extra capacity that `append` allocates (`spare`), the interleaving of goroutines
(`sched`), the user's events.

**Faithfulness of the reading.** The tie between model and code is reading only: nothing is extracted or run against
the Go code (the model is evaluated on test vectors written in the Go tests, see `Vectors.v`). Each definition cites
the lines it models. `strings.Fields`, `TrimSpace`, `Split`, `Contains`, `ReplaceAll` and `strconv.Atoi` are also written out as in Go 1.22's
sources (`GoStrLit.v`; the Go sources are not in the sandbox) and proved equal to the shorter definitions the model calls (C84); likewise the hash objects, `hmac` and `pbkdf2.Key` (`GoHash.v`, C85), and btcutil `base58`, `encoding/hex` and the portable `hash/crc32` (`GoCodec.v`, C87). Libraries outside `/repo` are modelled from their documented behaviour: `math/big`, `strings`, `strconv`, `regexp` (as the usual denotation; proved equal to a
derivative matcher), `unicode/utf8`, Gio (see below). decred `secp256k1` v4.2.0 (`ScalarBaseMult`, `Add`) is written out in `GoField.v` and
`GoCurve.v` and proved equal to what the model calls (C92, C93); its table of 8192 points is an argument with the
hypothesis that it holds the multiples of G it is documented to hold (`bytePoints_ok`). `Jacobi` and `ModSqrt` of `math/big` are written out in
`GoBig.v` over integers and proved right from quadratic reciprocity (`QuadRec.v`, C96); the arithmetic of `big.Int` is `Z` there. What the code
needs of `nat` (words of 64 bits: addition, subtraction, multiplication and squaring by the schoolbook, `basicSqr` and Karatsuba's
method, division, shifts, `setBytes`, `bytes`, `expNN` without a modulus and with Montgomery's method) is written out in `GoNat.v`, and the functions of `/repo` and base58 on it in `GoNatUse.v`; they are proved equal
to the functions on `Z` (C101). Memory reuse and the assembler versions of the vector routines are left out; `Sign` is not
stored, as no number in that code is negative. Division by 100 words and more (`divRecursive`) is not written out; every divisor
in `/repo` is the field prime, the group order or a number of one word.
Package `regexp` is written out in `GoRegexpParse.v` (the parser on ASCII patterns of at most 1000 bytes) and `GoRegexp.v` (C97): `Simplify`, the compiler to instructions with its patch lists,
`StartCond`, `MatchRunePos`, the backtracking engine with its table of visited states, Pike's machine, the one-pass analysis and
engine, the choice between them, `replaceAll`. The parser answers `PNotModelled` for constructs /repo does not use
(listed at the head of the file) and the three texts of /repo are proved to parse to the three trees. `SpecPattern.v` gives the
written form and the meaning of all patterns over the operators of /repo (C106) and the parser is proved to accept those within the repeat limit with that meaning and to refuse the others (texts that are not of a well-formed pattern are not covered by C106). Not written out: alternation,
any-character, non-greedy and open-bound operators, the literal-prefix search of `Prog.Prefix` (a pattern that would use it is a `Panic` of
`MustCompile`; the three patterns do not), reuse of threads and machines. The compiler, both general engines and the
simplifier are proved for every tree of the type, and that the one-pass engine reports only matches; that it misses none for every pattern whose dispatch tables
pass the check of `GoRegexpExact.v` (C108), among them that of `reg_ver_bytes.go:75`, the only one of the three that gets it.

`fmt.Sprintf` for the verbs, flags and types of arguments used in `/repo`, `strings.Join`, `strings.Repeat` (results up to 8192 bytes),
`bytes.Compare` and the big-endian routines of `encoding/binary` are written out in `GoFmt.v` (C102); reflection on the arguments, other verbs and flags,
wrong numbers of arguments and the pool of printers are not (the contents left in the number buffer are an argument). `sort.Slice` is
written out in `GoSort.v` (C104).

### Modelled

| Source | Model |
|---|---|
| `bip39/bip39.go` (all functions, package state) | `Bip39.v`, `Bip39Sys.v` (aliasing and goroutines), `Bip39Init.v` (`init`, `compareByteSlices`) |
| `bip39/wordlists/*.go` (ten lists, `init` checksums) | `Wl*.v`, `WordLists.v` |
| `bip32/bip32.go`, `bip32/utils.go`, `bip32/err.go` (all functions) | `Bip32.v`, `Secp.v`, `Base58.v`; slices and aliasing again in `Mem.v` |
| `bip32/path.go` (all functions) | `Bip32Path.v`, `Rx.v` |
| `bip32/reg_ver_bytes.go` (table, `init`, all methods) | `Bip32Reg.v`, `Bip32Vars.v` (variables assigned by callers) |
| `util/util.go`, `util/key_path.go`, `util/err.go` (all functions) | `UtilMnemonic.v`, `Util.v`, `Generator.v` (the `Generator` object) |
| `bip44/coin.go`, `coins.go` (table, `init`), `script.go` (all), `slip-0044.md` | `Bip44.v`, `Bip44Coins.v`, `Slip44.v`, `GoScript.v` |
| `examples/ui/one/main.go` (state, handlers, click handling, labels) | `Ui.v`; with the libraries as written `UiWhole.v`, with the pages `UiMotion.v` |
| `examples/ui/one/slider.go` (all functions) and its calls in `main.go` | `Slider.v` (exact arithmetic), `Float.v` and `FloatSlider.v` (machine arithmetic) |

### Not modelled

- Commented-out code (`util/util.go:129-183`, `util/key_path.go:46-67`) and the tests.
- In `bip44/script.go`, the file system: the embedded file is an arbitrary answer to `ReadFile`, and writing `testing.go` ends the
  model with the name and contents passed (`GoScript.v`; the code drops the error).
- In `examples/ui/one`, drawing inside a page, `material` widgets, scrolling and window events.
  Gio is reduced to: `SetText`/`Text` are inverse, `List.Layout(n, f)` calls `f` only on indices below n, a `Flex` lays
  out rigid children before flexed ones, edits reach a field between the handlers of two frames.
- Time and memory consumption; data races as undefined behaviour (interleavings of whole statements are modelled, torn
  reads of a map header are not).
- `output/wasm` (a compiled build), workflows, makefiles.
- Constant-time behaviour of the cryptography.
- `int` is 64 bits; lengths do not overflow it. C85 needs fewer than 2^61 bytes written to a hash object (its length counter
  in bits is a uint64).

### Simplifications that matter when reading a theorem

- A `Key` is a list of bytes; theorems carry `wf_key k` (78 bytes), which Go's type guarantees.
- `NewEntropy`'s random source: `rd` is the delivered prefix. The code drops the error of `rand.Read`, so the error
  itself is not an argument (C12).
- `Slider.v` computes with exact rationals where the code has float32 (C71-C74). `FloatSlider.v` computes as the machine does
  (C89-C91): finite values are rationals, `None` is an infinity or a NaN (proved not to occur), the sign of zero is not kept, and
  at each of the four places where Go's specification allows a fused multiply-add an argument says whether the compiler
  uses it. C90 bounds the difference of the two. The clock does not run backwards (C72-C74, C90, C91).
- `Generator.v`, C78: the first five theorems take a read of the 78-byte field and an assignment to it as one step each;
  `Derive_bytes` takes both apart into bytes (`C78_torn`, `C78_torn_refuted`).
- The registries' exported maps and slices can be changed by other packages; theorems with `after_init T` speak about
  tables as `init` leaves them. C80 treats every contents of the two version maps, C79 every value of
  `DefaultMainnetVersion`; elsewhere that variable has its initial value.

## 4. Files

Each property group has four layers: the model (`X.v`), a small specification that does not mention the model's helpers
(`SpecX.v`), lemmas (`XFacts.v`), and the statements twice: `ClaimsX.v` with proofs and `PropsX.v`, which holds nothing but the
theorems (`exact` of the lemma in `ClaimsX.v`), `Print Assumptions`, and an `Example` beside each group that meets
the hypotheses.

- Mathematics: `Prime.v` (Pocklington), `SecpPrime.v` (certificates for p and n), `ECGroup.v` (group law over a field),
  `Fp.v`, `SpecEC.v`, `SecpGroup.v`, `SecpOrder.v` (n.G = O by an addition chain with certified slopes, so that the
  check is cheap without the VM), `Cert130.v` (130.G, a point whose y coordinate has a leading zero byte), `SecpFacts.v`.
- Hashes: `Prims.v` (interface), `Hash.v` (executable), `HashFacts.v` (output lengths), `GoHash.v` (the objects of the Go
  libraries), `SpecHash.v` and `SpecPrims.v` (the standards), `GoHashFacts.v`, `SpecHashFacts.v`, `SpecSha2Facts.v`,
  `SpecRmdFacts.v`, `SpecKeccakFacts.v`, `HashStdFacts.v`.
- Encoders: `GoCodec.v` (base58, hex, crc32 as the libraries write them), `SpecCodec.v` (IEEE 802.3, hexadecimal texts),
  `GoCodecFacts.v`, `GoCrcFacts.v`, `SpecCodecFacts.v`, `CrcErrFacts.v`.
- Curve library: `GoField.v`, `GoCurve.v` (decred's words and formulas), `GoFieldFacts.v`, `GoFieldBytes.v`, `GoCurveFacts.v`.
- Regular expressions of Go: `GoRegexp.v` (the library), `SpecRegexp.v` (what a tree denotes), `GoRegexpIn.v` (programs, runes), `GoRegexpRun.v`
  (backtracking), `GoRegexpPike.v` (Pike's machine), `GoRegexpCode.v`, `GoRegexpComp.v` (compiler), `GoRegexpSimp.v`, `GoRegexpMain.v`,
  `GoRegexpLink.v`, `GoRegexpOne.v` (one pass), `GoRegexpSound.v`, `GoRegexpExact.v` (one pass, every pattern: C108), `GoRegexpSpace.v` (replacing), `GoRegexpParse.v`, `GoRegexpParseFacts.v` (parser).
- Square roots: `QuadRec.v` (quadratic reciprocity, mathematics only), `GoBig.v` (math/big), `GoBigFacts.v`.
- Numbers of math/big: `GoNat.v` (words and loops), `GoNatUse.v` (the callers on them), `SpecNat.v` (which number a vector stands for),
  `GoNatFacts.v`, `GoNatOps.v`, `GoNatKara.v` (long products and squares), `GoNatWW.v` (two words by one), `GoNatDiv.v`, `GoNatBytes.v`, `GoNatExp.v`, `GoNatUseFacts.v`.
- Floating point: `Float.v` (operations), `FloatSlider.v` (the slider with them), `SpecFloat.v` (rounding, error units), `FloatFacts.v`,
  `RoundFacts.v`, `FloatSliderFacts.v`, `FloatHist.v` (histories).
- The random source: `GoRand.v` (crypto/rand of Go 1.22 with `io.ReadFull`, `NewSeed` and `NewEntropy` on it), `SpecRand.v`.
- Texts: `GoFmt.v` (fmt, strings, bytes, encoding/binary as written), `SpecFmt.v` (what a format prints, lexicographic order), `GoFmtFacts.v`.
- The wallet on the libraries: `GoWhole.v` (bip39, bip32, util with the library functions of the files above in place of the model's), `GoWholeFacts.v`.
- The example program on the libraries: `UiWhole.v`, `SpecUiWhole.v` (sessions a machine can hold), `UiWholeFacts.v`.
- The example program with its moving pages on the libraries: `UiMotion.v`, `SpecUiMotion.v`, `UiMotionFacts.v`.
- The parser of `regexp` on all patterns of the operators used in /repo: `SpecPattern.v` (syntax, written form, meaning, limits), `PatternFacts.v`.
- Definitions inside `*Facts.v`, `Claims*.v`, `FloatHist.v`, `GoFieldBytes.v`, `GoRegexpIn.v` to `GoRegexpSpace.v`, `GoNatOps.v` to `GoNatExp.v`, `QuadRec.v`, `SecpOrder.v`, `SecpPrime.v`, `Prime.v`, `Cert130.v` are local to proofs and model no code.
- `Props39.v` C01-C14, C58, C59; `Props32.v` C15-C34, C47, C60-C62; `PropsPath.v` C35-C39; `PropsUtil.v` C40-C46; `Props44.v` C48-C51,
  C63, C64; `PropsCross.v` C65; `PropsMem.v` C52, C53, C66; `PropsUi.v` C54-C57, C67-C70; `PropsSlider.v` C71-C74; `PropsMore.v` C75-C78;
  `PropsVars.v` C79, C80; `PropsWallet.v` C81-C83; `PropsText.v` C84; `PropsHash.v` C85, C86; `PropsCodec.v` C87, C88;
  `PropsFloat.v` C89-C91; `PropsCurve.v` C92-C95; `PropsBig.v` C96; `PropsRegexp.v` C97; `PropsAny.v` C98, C99; `PropsRand.v` C100; `PropsNat.v` C101; `PropsFmt.v` C102; `PropsWhole.v` C103; `PropsSort.v` C104; `PropsUiWhole.v` C105; `PropsPattern.v` C106; `PropsUiMotion.v` C107; `PropsOnePass.v` C108.
- `Vectors.v`: the model evaluated on vectors of the repository's tests (master keys, refused strings, mnemonics).
  `tools/vectors.py` prints further ones (BIP-32 chains, public derivation, five of the 24 seeds) as Coq commands; evaluated
  once with the VM, outside the build, the model gave every expected answer. These are tests of the transcription, not part
  of any claim.

## 5. Findings (deviations proved)

See the theorems ending in `_refuted`; the most consequential ones:

- C10, C11, C59: the word list is kept by reference and `SetWordList` is not atomic. A write through the caller's slice, or a
  concurrent call, can make the package produce sentences that it rejects itself, or keep words of two lists.
- C12: failure of the random source is not reported; with nothing delivered, all-zero entropy comes back without an error.
- C21, C22: when I_L is 0 modulo n, public derivation fails where BIP-32's function is defined (C21) and where private
  derivation succeeds (C22).
- C25: a public derivation that reaches the point at infinity returns a key without an error. C26: I_L >= n is accepted.
- C27: the depth byte wraps from 255 to 0. C33: an x coordinate off the curve is expanded without an error.
- C36: path values are reduced modulo 2^32. C38: values cannot be read from a path with 256 of them. C39: replacing a
  value can give a path that the package rejects.
- C40: `RootKeyFromSeed` panics when the master key is invalid. C42: derivation errors are dropped and zero keys returned.
- C43: `DeriveBIP32Result` can report a path that the package rejects. C44: `GenerateRange` derives a chain, not siblings.
- C45: the Ethereum address is wrong when a coordinate has leading zero bytes (witness 130.G). C46: `AddrP2SH` hashes the
  public key, not a script.
- C76: the start-up checksum of a word list is a CRC: five bytes can be changed without being noticed. C77, C78: `RootKey`
  hands out the generator's field; `SetRootKey` during a derivation can mix two wallets in one result.
- C52, C53: `Deserialize` and the checksum helper write into spare capacity of the caller's slice.
- C54: a seed with an invalid master key makes the example program panic. C56: private keys of the previous wallet stay on
  the screen after an undecodable root key. C57: results stay invisible after the tab list has been empty. C68: editing the
  passphrase while the mnemonic field is empty erases a wallet entered as seed or root key.
- C90: with frames at most 8 ns apart a slide never ends; in general it ends a little after its duration.
- C92, C95: the curve library compares coordinates before reducing them, and public keys with x >= p are accepted: the sum of
  two names of one point is (0, 0).
- C98: a word list with fewer than 2048 words makes `NewMnemonic` panic on some entropies; with repeated words some sentences
  decode to another entropy; with more than 2048 words an entropy has several sentences and 17-byte entropies are accepted.
- C99: `NewChildKey` derives from arrays that are no extended keys: a stored scalar 0 or >= n, an x off the curve, a public
  key starting with a byte other than 02 and 03.
- C100: when the random source fails, `bip39.NewEntropy` returns what was written before, followed by zeros, without an error;
  `bip32.NewSeed` does report it, but its seeds have 2048 bits where BIP-32 allows 128 to 512.
