{"id": "C01", "title": "SM3 digest is correct for every message and every way of writing it", "statement": "After New(), any sequence of Write calls followed by Sum(nil) returns the GB/T 32905 SM3 digest of the concatenation of the written slices (the message length field is the bit length mod 2^64).", "quantifier": "for all lists of byte slices of any lengths", "why_tests_cant": "Tests use a handful of messages and chunkings; buffer-boundary behaviour depends on every residue mod 64 and the whole unrolled compression function on all 2^512 blocks.", "anchors": ["hash/sm3/sm3.go: New, Write, Sum, pad", "hash/sm3/compress.go: compress, r1, r2, expand"]}
{"id": "C02", "title": "SM3 objects behave like a pure message accumulator under any call history", "statement": "For any interleaving of Write, Sum and Reset, each Sum(in) returns a value that depends only on the bytes written since the last Reset and on in; Sum never changes what later calls return; Reset makes the object equivalent to a new one although it leaves the buffer bytes in place.", "quantifier": "for all finite sequences of Write/Sum/Reset calls", "why_tests_cant": "Unbounded histories; stale buffer contents only matter for particular lengths after particular histories.", "anchors": ["hash/sm3/sm3.go: Write, Sum, Reset"]}
{"id": "C03", "title": "SM3 deviates from the io.Writer and hash.Hash contracts in an exactly characterised way", "statement": "Write(p) returns len(p) (io.Writer) and Sum(b) returns b followed by the digest (hash.Hash). Both fail: Write's count is the number of bytes left after the block loop, and Sum(b) returns just the 32-byte digest of written||b. The count is right exactly when the residual equals len(p); Sum(b) is right exactly for empty b.", "quantifier": "for all states, p and b", "why_tests_cant": "Existing tests ignore the count and only call Sum with an empty slice.", "anchors": ["hash/sm3/sm3.go: Write, Sum"]}
{"id": "C04", "title": "The Keccak permutation is the FIPS 202 permutation", "statement": "keccakF1600 (rounds unrolled four at a time with in-place lane shuffling and literal round constants) computes Keccak-p[1600,24] as defined by theta, rho, pi, chi, iota with the LFSR-defined round constants.", "quantifier": "for all 25-lane states of 64-bit words", "why_tests_cant": "2^1600 states.", "anchors": ["hash/sha3/keccakf.go: keccakF1600, rc"]}
{"id": "C05", "title": "SHA3-224/256/384/512 digests are correct for every message and chunking", "statement": "For each SHA3 constructor, any sequence of Writes followed by Sum(nil) equals the FIPS 202 SHA3 function (bit-level suffix 01 and pad10*1) of the concatenation.", "quantifier": "for all lists of byte slices", "why_tests_cant": "Buffering logic has block-boundary cases for every residue mod 144/136/104/72; xorIn is applied to the whole 168-byte buffer so correctness depends on an invariant over all histories.", "anchors": ["hash/sha3/sha3.go: New224, New256, New384, New512, Write, Sum, padAndPermute", "hash/sha3/xor_generic.go", "hash/sha3/keccakf.go"]}
{"id": "C06", "title": "SHAKE output is a stream: independent of write and read chunking, equal to FIPS 202", "statement": "For SHAKE128/256, after any Writes, any sequence of Reads of sizes n1..nk concatenates to the first n1+..+nk bytes of FIPS 202 SHAKE of the concatenated input; every Read fills its buffer and returns its length.", "quantifier": "for all inputs, all write splits and all read splits", "why_tests_cant": "Unbounded families of chunkings and output lengths.", "anchors": ["hash/sha3/sha3.go: Write, Read", "hash/sha3/shake.go: NewShake128, NewShake256"]}
{"id": "C07", "title": "A sponge object refuses input after output has started, with no side effect, until Reset", "statement": "Once Read or Sum was called, Write returns (0, ErrWriteAfterRead) and changes nothing (later reads continue the same stream); Reset makes the object indistinguishable from a fresh one. Holds in every history.", "quantifier": "for all call histories of Write/Read/Sum/Reset on any of the sponge instances", "why_tests_cant": "Histories are unbounded.", "anchors": ["hash/sha3/sha3.go: Write, Read, Reset, ErrWriteAfterRead"]}
{"id": "C08", "title": "Clones of a SHAKE/cSHAKE object are independent", "statement": "In a program using several objects obtained by construction and Clone, an operation on one object never changes what another returns, and a clone's future is that of its origin at clone time.", "quantifier": "for all multi-object call histories", "why_tests_cant": "Independence is a statement about all futures of both objects.", "anchors": ["hash/sha3/shake.go: Clone"]}
{"id": "C09", "title": "SHA3 Sum appends to its argument but advances the state", "statement": "Sum(b) returns b followed by exactly Size() bytes (whatever len and cap of b). Contrary to hash.Hash (\"does not change the underlying hash state\"), Sum switches to squeezing: a second Sum returns the next Size() bytes of the stream and a later Write fails.", "quantifier": "for all states and b (any capacity)", "why_tests_cant": "Quantifies over every state and slice capacity; the contract violation needs call orders that tests do not exercise.", "anchors": ["hash/sha3/sha3.go: Sum"]}
{"id": "C10", "title": "Both byte-xoring implementations agree", "statement": "xorInUnaligned/copyOutUnaligned and xorInGeneric/copyOutGeneric have identical effect for every rate used by the package, so results do not depend on the platform chosen at build time.", "quantifier": "for all states and all buffers of each rate in use", "why_tests_cant": "Each build only contains one of the two.", "anchors": ["hash/sha3/xor_generic.go", "hash/sha3/xor_unaligned.go", "hash/sha3/xor.go"]}
{"id": "C11", "title": "left_encode is canonical and injective", "statement": "leftEncode(v) is the SP 800-185 left_encode of v for every uint64, uses the minimal number of bytes, and no encoding is a prefix of the encoding of a different value.", "quantifier": "for all uint64 values", "why_tests_cant": "2^64 values; prefix-freeness relates all pairs.", "anchors": ["hash/sha3/shake.go: leftEncode"]}
{"id": "C12", "title": "bytepad pads to a multiple of the rate, but adds a spurious block when already aligned", "statement": "bytepad(X,w) starts with left_encode(w)||X, has length divisible by w, the padding is zero. It equals SP 800-185 bytepad exactly when len(left_encode(w)||X) is not a multiple of w; otherwise it is one whole block of zeros too long.", "quantifier": "for all byte strings and all w in 1..2^63", "why_tests_cant": "Needs exact alignment of the customisation string, which KATs never hit.", "anchors": ["hash/sha3/shake.go: bytepad"]}
{"id": "C13", "title": "cSHAKE equals SP 800-185 cSHAKE except for block-aligned customisation prefixes", "statement": "NewCShake128/256(N,S) followed by Writes and Reads gives SP 800-185 cSHAKE(X,L,N,S), plain SHAKE if N and S are empty; the only deviation is when left_encode(rate)||encode(N)||encode(S) is a multiple of the rate long, where the output is that of a prefix with one extra zero block (refutation with a concrete witness).", "quantifier": "for all N, S, inputs and read splits (lengths below 2^61 bytes)", "why_tests_cant": "All pairs N,S; the failing family is a thin residue class.", "anchors": ["hash/sha3/shake.go: NewCShake128, NewCShake256, newCShake, Reset, Clone"]}
{"id": "C14", "title": "cSHAKE customisation is unambiguous", "statement": "Distinct pairs (N,S) give distinct absorbed prefixes, so no two customisations share an instance.", "quantifier": "for all pairs of pairs of byte strings with length below 2^61", "why_tests_cant": "Injectivity over unbounded strings.", "anchors": ["hash/sha3/shake.go: newCShake, leftEncode, bytepad"]}
{"id": "C15", "title": "The table-driven AES encryption is FIPS-197 AES", "statement": "For every 16, 24 or 32-byte key and every block, SetKey followed by Encrypt writes the FIPS-197 Cipher of the block; the S-box and T-tables equal their GF(2^8) definitions.", "quantifier": "for all keys of the three sizes and all 16-byte blocks", "why_tests_cant": "2^256 x 2^128 inputs.", "anchors": ["drbg/internal/aes/generic.go: expandKeyGo, encryptBlockGo", "drbg/internal/aes/const.go", "drbg/internal/aes/cipher.go: SetKey, Encrypt"]}
{"id": "C16", "title": "AES decryption inverts encryption", "statement": "Decrypt(Encrypt(x)) = x = Encrypt(Decrypt(x)) for every key and block, and Decrypt is FIPS-197 InvCipher.", "quantifier": "for all keys of the three sizes and all blocks", "why_tests_cant": "Same input space.", "anchors": ["drbg/internal/aes/generic.go: decryptBlockGo, expandKeyGo", "drbg/internal/aes/cipher.go"]}
{"id": "C17", "title": "AES key setup is total, rejects bad sizes without effect, and leaves no residue", "statement": "SetKey returns an error exactly for lengths other than 16/24/32 and then changes nothing; after any history of SetKey calls the block functions depend only on the last accepted key; short source/destination slices panic rather than read or write out of bounds.", "quantifier": "for all histories of SetKey/Encrypt/Decrypt with arbitrary lengths", "why_tests_cant": "Histories with shorter keys after longer ones leave stale round keys in the array.", "anchors": ["drbg/internal/aes/cipher.go: SetKey, Encrypt, Decrypt", "drbg/internal/aes/tools.go"]}
{"id": "C18", "title": "The accelerated AES wrapper is only right for 32-byte keys", "statement": "The AES-NI assembly agrees with FIPS-197 and the portable cipher for every 32-byte key, block and earlier state. Encrypt and Decrypt always run 14 rounds over the whole array, so with 16- and 24-byte keys the words of an earlier key take part, the result is not AES and decryption does not undo encryption. SetKey returns no error: an empty key panics, any other wrong length makes the assembly leave its arrays.", "quantifier": "for all keys and blocks", "why_tests_cant": "The wrapper is only ever exercised with 32-byte keys.", "anchors": ["drbg/internal/aes/cipher_asm.go: SetKey, Encrypt, Decrypt", "drbg/internal/aes/asm_amd64.s"]}
{"id": "C19", "title": "CTR_DRBG follows SP 800-90A for block-aligned requests under any history", "statement": "For any sequence of Init (first), Reseed and Read/ReadWithAdditionalData calls whose requested lengths are multiples of 16, the returned bytes equal those of SP 800-90A CTR_DRBG (AES-256, no derivation function) driven with the same inputs.", "quantifier": "for all call histories with block-aligned requests", "why_tests_cant": "Tests run two fixed histories.", "anchors": ["drbg/ctr_drbg.go: Init, update, Reseed, ReadWithAdditionalData, Read"]}
{"id": "C20", "title": "CTR_DRBG repeats key stream for requests that are not block multiples", "statement": "SP 800-90A requires fresh counter blocks for every output byte. For a request of 16q+r bytes with q>=1 and 0<r<16 the last r bytes equal the first r bytes of the block before them; for requests shorter than one block the output is produced without incrementing the counter and under the key schedule left from before. So such outputs are not SP 800-90A outputs.", "quantifier": "for all generator states and all unaligned request lengths", "why_tests_cant": "A relation between output bytes over all states, and test vectors use aligned lengths only.", "anchors": ["drbg/ctr_drbg.go: ReadWithAdditionalData"]}
{"id": "C21", "title": "The DRBG counter is a 128-bit big-endian increment", "statement": "Incrementing V adds one modulo 2^128 to its big-endian value for every V, so a generate call never reuses a counter value within 2^128 blocks.", "quantifier": "for all 16-byte V", "why_tests_cant": "Carry chains of every length.", "anchors": ["drbg/ctr_drbg.go: inc"]}
{"id": "C22", "title": "DRBG instantiation does not enforce the entropy bound and re-instantiation is not fresh", "statement": "Init on a new object accepts every entropy input, of any length including 0 (the security strength checked is still zero); on an already initialised object it rejects inputs shorter than 32 bytes and leaves the state unchanged, but when it accepts, the result depends on the state before (key and V are not cleared).", "quantifier": "for all entropy inputs, personalisation strings and prior states", "why_tests_cant": "Negative-space behaviour: absence of rejection for all short inputs.", "anchors": ["drbg/ctr_drbg.go: Init, NewCtrDrbg"]}
{"id": "C23", "title": "DRBG reads always succeed, and fill exactly the requested bytes", "statement": "Read returns (len(out), nil) for every length and state, does not panic, writes exactly the out slice; inputs longer than 48 bytes are truncated to 48 and shorter ones zero-extended.", "quantifier": "for all states, lengths and additional data", "why_tests_cant": "Unbounded lengths.", "anchors": ["drbg/ctr_drbg.go: Read, ReadWithAdditionalData, update, Reseed"]}
{"id": "C24", "title": "CSIDH-512 field addition, subtraction and multiplication are exact modulo p", "statement": "For reduced inputs addRdc, subRdc, mulRdc return the reduced x+y, x-y and x*y/2^512 mod p.", "quantifier": "for all x,y in [0,p)", "why_tests_cant": "2^1022 input pairs; carry propagation corner cases have probability about 2^-64.", "anchors": ["dh/csidh/fp511.go", "dh/csidh/fp511_generic.go: mulGeneric, mulRdc, addRdc, subRdc"]}
{"id": "C25", "title": "The stale carry fed into the Montgomery loop is harmless", "statement": "The generic Montgomery multiplication adds a leftover carry variable into the first limb of the reduction in each round; the result is nevertheless the same as with a zero carry, for all operands in range.", "quantifier": "for all x,y in [0,p)", "why_tests_cant": "A wrong carry would change the result only on rare inputs.", "anchors": ["dh/csidh/fp511_generic.go: mulGeneric"]}
{"id": "C26", "title": "CSIDH helper arithmetic is exact", "statement": "mul512 is multiplication modulo 2^512, mul576 the exact 576-bit product, cswap512 swaps iff the choice is 1, isLess is unsigned comparison, isZero/equal decide equality, ctPick64/ctIsNonZero64 select/test correctly.", "quantifier": "for all 512-bit operands and 64-bit multipliers", "why_tests_cant": "Operand space.", "anchors": ["dh/csidh/fp511_generic.go: mul512, mul576, cswap512", "dh/csidh/fp511.go: isLess, isZero, equal, ctPick64, ctIsNonZero64"]}
{"id": "C27", "title": "CSIDH modular exponentiation is exact", "statement": "modExpRdcCommon with window tables returns b^e (Montgomery form) for every reduced base and every 512-bit exponent (and modExpRdc64 for every 64-bit exponent).", "quantifier": "for all b in [0,p) and all e below 2^512 / 2^64", "why_tests_cant": "Exponent space.", "anchors": ["dh/csidh/fp511.go: modExpRdcCommon, modExpRdc512, modExpRdc64"]}
{"id": "C28", "title": "CSIDH constants are what their uses require", "statement": "p = 4*prod(primes)-1 with the 74 listed pairwise distinct odd primes; one, two, twoNeg, four are the Montgomery forms of 1,2,-2,4; fourSqrtP = floor(4 sqrt p); pNegInv = -p^-1 mod 2^64; the inversion exponent is p-2 (its comment says p-1) and the Euler exponent (p-1)/2.", "quantifier": "over the fixed constants", "why_tests_cant": "Tests do not pin most constants; a wrong fourSqrtP or prime only shows in rare runs.", "anchors": ["dh/csidh/consts.go"]}
{"id": "C29", "title": "The field characteristics are prime", "statement": "p of CSIDH-512 and the SIDH primes p434, p503, p751 are prime numbers.", "quantifier": "over the fixed constants", "why_tests_cant": "No finite test shows primality.", "anchors": ["dh/csidh/consts.go: p", "dh/sidh/internal/p434/params.go", "dh/sidh/internal/p503/params.go", "dh/sidh/internal/p751/params.go"]}
{"id": "C30", "title": "CSIDH inversion and quadratic-residue test are right for every element", "statement": "Exponentiation by the pMin1 constant inverts every non-zero element (and maps 0 to 0); isNonQuadRes returns 1 exactly for elements that are not non-zero squares (0 counts as non-residue).", "quantifier": "for all x in [0,p)", "why_tests_cant": "Euler's criterion for all elements.", "anchors": ["dh/csidh/fp511.go: isNonQuadRes, modExpRdc512", "dh/csidh/consts.go: pMin1, pMin1By2"]}
{"id": "C31", "title": "CSIDH private keys are always in range, and random-source failures are reported", "statement": "GeneratePrivateKey either returns the source's error or writes a key all of whose 74 exponents are in [-5,5], determined by the accepted bytes of the random stream by rejection sampling; every such vector is reachable.", "quantifier": "for all random streams (including failing ones)", "why_tests_cant": "All random streams.", "anchors": ["dh/csidh/csidh.go: GeneratePrivateKey"]}
{"id": "C32", "title": "CSIDH private key serialisation", "statement": "Import of 37 bytes then Export returns the same bytes; Export then Import restores the key; lengths below 37 are refused without effect; lengths above 37 panic instead of being refused; no range check is done so exponents outside [-5,5] are accepted.", "quantifier": "for all byte strings of all lengths", "why_tests_cant": "All lengths and contents.", "anchors": ["dh/csidh/csidh.go: PrivateKey.Import, PrivateKey.Export"]}
{"id": "C33", "title": "CSIDH public key serialisation round-trips only into a fresh key", "statement": "For a zero-valued key Import(b) then Export returns b for every 64-byte b; wrong lengths are refused without effect. Import into a used key yields the bitwise OR of old and new value, so it is not a replacement.", "quantifier": "for all 64-byte strings and all prior key values", "why_tests_cant": "Tests import only into fresh keys.", "anchors": ["dh/csidh/csidh.go: PublicKey.Import, PublicKey.Export"]}
{"id": "C34", "title": "CSIDH field sampling is uniform rejection", "statement": "randFp returns the first 512-bit candidate of the random stream (top bit cleared) below p, reading whole 64-byte chunks; the result is always below p; it panics exactly when the stream fails.", "quantifier": "for all random streams", "why_tests_cant": "All random streams.", "anchors": ["dh/csidh/csidh.go: randFp"]}
{"id": "C35", "title": "CSIDH never derives a secret from a key it rejects", "statement": "DeriveSecret returns false and leaves the output untouched whenever Validate rejects the public key; Validate rejects every A >= p and A = 2, A = -2 whatever the randomness.", "quantifier": "for all keys, output buffers and random streams", "why_tests_cant": "All invalid encodings.", "anchors": ["dh/csidh/csidh.go: DeriveSecret, Validate"]}
{"id": "C36", "title": "CSIDH x-only arithmetic is the Montgomery-curve group law", "statement": "xDbl, xAdd, xDblAdd compute x([2]P), x(P+Q) from x(P), x(Q), x(P-Q) on By^2=x^3+Ax^2+x given by projective (A:C); montEval evaluates the curve equation.", "quantifier": "for all curve coefficients and all points, over the field of p elements", "why_tests_cant": "Field size.", "anchors": ["dh/csidh/curve.go: xDbl, xAdd, xDblAdd, montEval"]}
{"id": "C37", "title": "The CSIDH ladder multiplies", "statement": "xMul(k,P) returns x([k]P) for every 512-bit scalar, including when input and output alias.", "quantifier": "for all scalars below 2^512 and all points", "why_tests_cant": "Scalar space.", "anchors": ["dh/csidh/curve.go: xMul"]}
{"id": "C38", "title": "The CSIDH group action applies exactly the isogenies of the private key", "statement": "When groupAction returns, for every prime index i exactly |e_i| isogenies of degree l_i were evaluated, all on the side (curve or twist) given by the sign of e_i, whatever random points were drawn.", "quantifier": "for all private keys and all random streams on which it terminates", "why_tests_cant": "All randomness histories.", "anchors": ["dh/csidh/csidh.go: groupAction"]}
{"id": "C39", "title": "SIDH field arithmetic is exact and range-preserving for all three primes", "statement": "For p434, p503, p751: addition and subtraction of values in [0,2p) give values in [0,2p) congruent to the sum/difference; Montgomery multiplication gives a value in [0,2p) congruent to x*y/R; strong reduction gives the canonical residue.", "quantifier": "for all operands in [0,2p)", "why_tests_cant": "Operand space; carry cases of probability about 2^-64.", "anchors": ["dh/sidh/internal/p434/arith_generic.go", "dh/sidh/internal/p503/arith_generic.go", "dh/sidh/internal/p751/arith_generic.go"]}
{"id": "C40", "title": "SIDH quadratic-extension arithmetic is exact", "statement": "add, sub, mul, sqr, inv on GF(p^2)=GF(p)(i) are exact for all in-range operands, for each prime; inv(0)=0.", "quantifier": "for all operands", "why_tests_cant": "Operand space.", "anchors": ["dh/sidh/internal/p434/fp2.go", "dh/sidh/internal/p503/fp2.go", "dh/sidh/internal/p751/fp2.go"]}
{"id": "C41", "title": "SIDH field constants and Montgomery conversion", "statement": "The stored p, 2p, p+1, R^2, 1, 1/2, 6 are right; ToMontgomery and FromMontgomery are mutually inverse on residues; the (p-3)/4 addition chain computes exactly that power.", "quantifier": "for all residues; over the fixed constants", "why_tests_cant": "Residue space; a wrong chain entry would be caught only with inputs of special order.", "anchors": ["dh/sidh/internal/p434/params.go", "dh/sidh/internal/p434/core.go", "dh/sidh/internal/p503/fp2.go", "dh/sidh/internal/p751/fp2.go"]}
{"id": "C42", "title": "SIDH public keys round-trip only into a fresh key, and canonical encodings only", "statement": "Import(b) into a new key then Export returns b whenever every coordinate is < p; wrong lengths are refused; importing into a used key does not clear it (doc says it clears) but ORs.", "quantifier": "for all byte strings and prior key values", "why_tests_cant": "Byte-string space; existing tests import into fresh keys.", "anchors": ["dh/sidh/sidh.go: PublicKey.Import, PublicKey.Export", "dh/sidh/common/utils.go: BytesToFp2, Fp2ToBytes"]}
{"id": "C43", "title": "SIDH private keys round-trip, and have the documented size", "statement": "Export(Import(b)) = b for inputs of exactly Size() bytes (for SIKE including the S value), other lengths are refused without effect.", "quantifier": "for all byte strings, all variants and primes", "why_tests_cant": "All lengths and contents.", "anchors": ["dh/sidh/sidh.go: PrivateKey.Import, Export, Size, NewPrivateKey"]}
{"id": "C44", "title": "Generated SIDH scalars lie in the documented key space except for p434 2-torsion keys", "statement": "Generate returns an rng error or a scalar in [2^(n-1), 2^n) for the torsion group's bit length n; for p434 variant A (n = 216, a multiple of 8) the top bit is not set and the scalar is an arbitrary value below 2^216, so the documented lower bound fails.", "quantifier": "for all random streams", "why_tests_cant": "All random streams.", "anchors": ["dh/sidh/sidh.go: PrivateKey.Generate", "dh/sidh/common/params.go"]}
{"id": "C45", "title": "Isogeny strategies never leave their bounds and walk the whole tree", "statement": "For each prime and side, the strategy table drives the tree traversal without out-of-range access to the strategy or the point stacks and performs exactly the required number of isogenies in order, each generated from a kernel point of the right residual order (i.e. the same chain as the naive walk).", "quantifier": "over all six strategy tables, for all kernel points", "why_tests_cant": "Tests only observe end-to-end agreement.", "anchors": ["dh/sidh/common/params.go", "dh/sidh/internal/p434/core.go: traverseTreePublicKeyA, traverseTreeSharedKeyA, traverseTreePublicKeyB, traverseTreeSharedKeyB"]}
{"id": "C46", "title": "SIDH curve formulas are correct", "statement": "xDblAdd, point doubling/tripling chains, coefficient recovery, j-invariant, 3- and 4-isogeny generation and evaluation satisfy the Montgomery-curve identities.", "quantifier": "for all field elements satisfying the curve equations", "why_tests_cant": "Field size.", "anchors": ["dh/sidh/internal/p434/curve.go"]}
{"id": "C47", "title": "The SIDH three-point ladder computes P+[k]Q", "statement": "ScalarMul3Pt returns x(P+[k]Q) from x(P),x(Q),x(P-Q) for every scalar of the given bit length.", "quantifier": "for all scalars and points", "why_tests_cant": "Scalar space.", "anchors": ["dh/sidh/internal/p434/curve.go: ScalarMul3Pt"]}
{"id": "C48", "title": "SIDH key API rejects mismatched parameters by panicking, and nothing else", "statement": "GeneratePublicKey panics exactly on variant or prime mismatch; DeriveSecret panics exactly when both keys use the same torsion variant or different primes - so a SIKE private key is accepted with an SIDH-B public key.", "quantifier": "for all combinations of key variants and primes", "why_tests_cant": "Negative-space behaviour.", "anchors": ["dh/sidh/sidh.go: GeneratePublicKey, DeriveSecret"]}
{"id": "C49", "title": "The parameter registry is write-once", "statement": "Register panics on a duplicate identifier and otherwise leaves all other entries unchanged; Params returns the registered value and panics for an unknown identifier.", "quantifier": "for all registration histories", "why_tests_cant": "Unbounded histories.", "anchors": ["dh/sidh/common/params.go: Register, Params"]}
{"id": "C50", "title": "SIKE decapsulation recovers the encapsulated secret", "statement": "For every key pair (the public key being the private key's own, possibly exported and re-imported), Decapsulate(priv, pub, Encapsulate(pub)) returns the same secret for every random message, with exactly sized buffers.", "quantifier": "for all key pairs, all random streams and all earlier uses of the two KEM objects", "why_tests_cant": "All messages and key pairs.", "anchors": ["dh/sidh/sike.go: Encapsulate, Decapsulate"]}
{"id": "C51", "title": "SIKE rejects implicitly and deterministically", "statement": "For any ciphertext whose re-encryption does not reproduce its first part, Decapsulate returns SHAKE256(S||ct) without an error, a value determined by the private S and the ciphertext only.", "quantifier": "for all ciphertexts, keys", "why_tests_cant": "Ciphertext space.", "anchors": ["dh/sidh/sike.go: Decapsulate"]}
{"id": "C52", "title": "SIKE buffers: oversized ciphertext buffers break agreement, wrong sizes panic", "statement": "Decapsulate and Encapsulate panic or return an error exactly for the listed bad sizes/variants; a ciphertext buffer longer than CiphertextSize is accepted by Encapsulate but the derived secret covers the whole buffer and so is not the one Decapsulate derives from the transmitted ciphertext.", "quantifier": "for all buffer sizes and contents", "why_tests_cant": "Sizes and contents unbounded.", "anchors": ["dh/sidh/sike.go: Encapsulate, Decapsulate"]}
{"id": "C53", "title": "SIKE KEM objects carry no state between operations", "statement": "The result of Encapsulate/Decapsulate depends on its arguments and the random stream only, not on previous operations on the same KEM object; Reset wipes the message and secret scratch space.", "quantifier": "for all operation histories on one object", "why_tests_cant": "Unbounded histories.", "anchors": ["dh/sidh/sike.go: KEM, Reset"]}
{"id": "C54", "title": "The multi-recipient KEM works only on the encapsulating object", "statement": "MultiKEM.Decapsulate compares against the message stored in the object instead of the decrypted one: on the same object directly after Encapsulate every recipient recovers the shared secret, but on a fresh object (a real recipient) an honest ciphertext is rejected.", "quantifier": "for all key pairs, recipients and random streams", "why_tests_cant": "Tests run both ends on one object.", "anchors": ["kem/mkem/sike.go: Encapsulate, Decapsulate"]}
{"id": "C55", "title": "Multi-recipient KEM: one shared secret, one ct0, per-recipient ct1 depends only on that recipient", "statement": "All recipients of one Encapsulate get the same secret; component i depends on public key i only; more public keys than allocated recipients panics.", "quantifier": "for all lists of recipients", "why_tests_cant": "Unbounded recipient lists.", "anchors": ["kem/mkem/sike.go: Encapsulate, Allocate"]}
{"id": "C56", "title": "CSIDH PKE round-trips when the group actions commute", "statement": "Dec(Enc(m)) = m for every message of the mask length whenever both sides derive the same CSIDH secret.", "quantifier": "for all messages, keys and random streams under the premise", "why_tests_cant": "Message and key space.", "anchors": ["kem/mkem/csidh.go: Enc, Dec"]}
{"id": "C57", "title": "CSIDH PKE silently encrypts under a public constant for an invalid recipient key", "statement": "If DeriveSecret refuses the recipient key, Enc does not fail: it masks the message with a value computed from the object's secret buffer (all zero on a fresh object), so anybody can decrypt.", "quantifier": "for all messages and all rejected keys", "why_tests_cant": "Absence of error over all invalid keys.", "anchors": ["kem/mkem/csidh.go: Enc, Dec"]}
{"id": "C58", "title": "Multi-recipient CSIDH PKE depends on stale hash state", "statement": "MultiPKE.Encrypt resets its hash after use rather than before, so after an Enc or Dec on the same object the first ciphertext is not decryptable; on a fresh object all recipients decrypt.", "quantifier": "for all messages and operation histories", "why_tests_cant": "Needs a particular history.", "anchors": ["kem/mkem/csidh.go: MultiPKE.Encrypt, Enc, Dec"]}
{"id": "C59", "title": "CPU feature flags: leaf-7 flags are right, HasAES reads the wrong register", "statement": "HasBMI2, HasADX, HasRDSEED equal the CPUID leaf 7 EBX bits 8, 19, 18 when that leaf exists; HasAES is bit 25 of leaf 1 EBX (part of the APIC id) instead of ECX, so it can be set on CPUs without AES-NI and clear on CPUs with it.", "quantifier": "for all CPUID responses", "why_tests_cant": "Tests only see the CPU they run on.", "anchors": ["utils/cpuid_amd64.go: init, cpuid", "utils/cpu.go"]}
{"id": "C60", "title": "The amd64 assembly field kernels of CSIDH compute the same function as the portable code", "statement": "mul512, mul576, cswap512 and mulBmiAsm leave exactly the memory the portable Go versions leave, for every way the pointers may coincide and on both sides of the BMI2/ADX feature test; they read nothing unset and touch no memory but their arguments; hence mulRdc is one function on every amd64 CPU.", "quantifier": "for all register-file and memory contents", "why_tests_cant": "Operand space; rare carries; different CPUs.", "anchors": ["dh/csidh/fp511_amd64.s", "dh/csidh/fp511_amd64.go: mulRdc"]}
{"id": "C61", "title": "CSIDH Validate: what acceptance and rejection mean", "statement": "If Validate accepts a reduced coefficient, the curve is non-singular and (unless some [4]Q equals (0,0)) it or its quadratic twist has a point of exact order N, N dividing the product of the 74 primes and N^2 > 16p. If it rejects, the curve is singular or has a point (on it or its twist) not killed by p+1. A non-singular curve all of whose points are killed by p+1 is never rejected.", "quantifier": "for all curve coefficients and all random-byte sequences", "why_tests_cant": "Tests use a handful of curves; a wrong accept needs an adversarial one.", "anchors": ["dh/csidh/csidh.go: Validate, cofactorMul"]}
{"id": "C62", "title": "CSIDH isogeny: image and codomain formulas", "statement": "For a kernel generator K of odd prime order l, xIso maps x(P) to x(P) * prod_{j=1}^{l-1} x(P+[j]K) for every P outside <K>, sends points of <K> to Z=0, and sets the coefficient to 2(u+v)/(u-v) with u=(a+2)^l prod(x_j+1)^8, v=(a-2)^l prod(x_j-1)^8.", "quantifier": "for all curves, all kernel points of odd prime order, all points", "why_tests_cant": "Points of chosen order on arbitrary curves are not in the tests; degenerate points are measure zero.", "anchors": ["dh/csidh/curve.go: xIso"]}
{"id": "C63", "title": "CSIDH public keys and shared secrets are canonical", "statement": "The coefficient returned by the group action is a fully reduced field element, so exported public keys and derived secrets are the 64 little-endian bytes of an integer below p.", "quantifier": "for all keys, peers and random-byte sequences", "why_tests_cant": "A missed final reduction shows for a negligible fraction of values.", "anchors": ["dh/csidh/csidh.go: groupAction, GeneratePublicKey, DeriveSecret, Export"]}
{"id": "C64", "title": "SIDH key agreement: both parties derive the same bytes", "statement": "For every pair of secret byte strings that are long enough, GeneratePublicKeyA/B return, all six coordinates are valid field elements, and deriveSecretA on B's key and deriveSecretB on A's key write the same bytes (the j-invariant of the common curve).", "quantifier": "for all three parameter sets, for all secrets of at least SecretBitLen bits on each side", "why_tests_cant": "The secret spaces have more than 2^216 elements; the tests run a few random key pairs.", "anchors": ["dh/sidh/internal/p434/core.go: PublicKeyGenA, PublicKeyGenB, DeriveSecretA, DeriveSecretB", "dh/sidh/internal/p503/core.go", "dh/sidh/internal/p751/core.go"]}
{"id": "C65", "title": "SIDH key exchange through the public API agrees, also over the wire", "statement": "For both sides' keys as made by the constructors (2-torsion side against 3-torsion or SIKE side): GeneratePublicKey, Export, Import into a fresh key and DeriveSecret all succeed and both sides obtain the same SharedSecretSize bytes, whether the public key is used directly or after the byte round trip.", "quantifier": "for all private keys of both sides, all three primes, all output buffers of sufficient length", "why_tests_cant": "Key space is about 2^216 to 2^378 per side; tests exchange a few random keys.", "anchors": ["dh/sidh/sidh.go: GeneratePublicKey, Export, Import, DeriveSecret"]}
{"id": "C66", "title": "Reset of a KEM object leaves the shared secret in its hash object", "statement": "After a successful Encapsulate or Decapsulate followed by KEM.Reset, the first SharedSecretSize bytes of the hash object's internal buffer are the shared secret: Reset clears the message and scalar scratch arrays only.", "quantifier": "for all objects, keys, ciphertexts and random streams", "why_tests_cant": "Unexported memory contents of another package's object; a test sees only returned values.", "anchors": ["dh/sidh/sike.go: Reset, Encapsulate, Decapsulate", "hash/sha3/sha3.go: Read"]}
{"id": "C67", "title": "The all-zero CSIDH private key acts as the identity", "statement": "With every exponent zero the group action returns its argument whatever points are drawn; the public key is the starting curve and the shared secret with a peer is the peer's public key bytes.", "quantifier": "for all curve coefficients and random-byte sequences", "why_tests_cant": "Quantifies over every random stream; the tests never use the trivial key.", "anchors": ["dh/csidh/csidh.go: groupAction, GeneratePublicKey, DeriveSecret"]}
{"id": "C68", "title": "The generator's output does not depend on which AES implementation was picked, once initialised", "statement": "For every history that starts with Init, the generator built over the AES-NI cipher and the one built over the portable cipher return the same results call by call and end in equal states; before Init the first bytes read differ.", "quantifier": "for all entropy, personalisation strings and call histories", "why_tests_cant": "A test run sees only the implementation its CPU selects, and only a few histories.", "anchors": ["drbg/ctr_drbg.go: NewCtrDrbg, Init, Reseed, ReadWithAdditionalData", "drbg/internal/aes/cipher_asm.go", "drbg/internal/aes/asm_amd64.s"]}
{"id": "C69", "title": "The SIDH assembly kernels for addition, subtraction and swapping are the portable functions", "statement": "On amd64 the routines addP, subP, adlP, sulP, modP and cswapP of the three field sizes write exactly what the Go code of arith_generic.go writes, for all words (not only reduced values), for every way the pointers can coincide and for any choice byte; they touch no other memory and keep BP.", "quantifier": "for all arrays of words, pointer coincidences, choice bytes, feature flags", "why_tests_cant": "The carry and mask chains are exercised by random field elements only; unreduced words, equal pointers and choice bytes above one are never tried.", "anchors": ["dh/sidh/internal/p434/arith_amd64.s: addP434, subP434, adlP434, sulP434, modP434, cswapP434", "dh/sidh/internal/p503/arith_amd64.s", "dh/sidh/internal/p751/arith_amd64.s", "dh/sidh/internal/p434/arith_generic.go"]}
{"id": "C70", "title": "The SIDH assembly multiplications are exact on field values, and wrong on larger words for two of the three sizes", "statement": "mulP434 computes the full product of any words; mulP503 and mulP751 do so below 2^511 and 2^752 (hence for all values below 2p), also when both operands are one array, on every CPU path; on all-ones words mulP503 and mulP751 differ from the portable product.", "quantifier": "for all operands below the bound and all feature flags", "why_tests_cant": "Karatsuba's dropped carries show up on a vanishing fraction of inputs, and one machine runs one of three code paths.", "anchors": ["dh/sidh/internal/p434/arith_amd64.s: mulP434", "dh/sidh/internal/p503/arith_amd64.s: mulP503", "dh/sidh/internal/p751/arith_amd64.s: mulP751", "dh/sidh/internal/p434/arith_generic.go: mulP434"]}
{"id": "C71", "title": "The SIDH assembly Montgomery reductions equal the portable one and may destroy their operand", "statement": "For every double-width value below p*R the reductions write the same words as the portable code on all three CPU paths, whatever the destination held; the operand's words can be overwritten.", "quantifier": "for all operands below p*R, old destinations and feature flags", "why_tests_cant": "Needs the reduction identity for all 2n-word operands; one machine exercises one path.", "anchors": ["dh/sidh/internal/p434/arith_amd64.s: rdcP434", "dh/sidh/internal/p503/arith_amd64.s: rdcP503", "dh/sidh/internal/p751/arith_amd64.s: rdcP751", "dh/sidh/internal/p434/arith_generic.go: rdcP434"]}
{"id": "C72", "title": "Two SIDH assembly routines break the frame pointer convention", "statement": "BP is preserved by all SIDH kernels except mulP434 on CPUs with BMI2 and ADX, which returns with BP pointing into its own dead frame, and rdcP751 on CPUs with BMI2, which returns with BP holding data.", "quantifier": "for all operands and feature flags", "why_tests_cant": "Only a profiler or traceback interrupting at the wrong instruction notices; no functional test does.", "anchors": ["dh/sidh/internal/p434/arith_amd64.s: mulP434", "dh/sidh/internal/p751/arith_amd64.s: rdcP751"]}
{"id": "C73", "title": "The SIDH extension field over the assembly kernels is the portable one, whichever variables coincide", "statement": "Addition, subtraction, multiplication, squaring, inversion, conditional swap and both Montgomery conversions of fp2.go, compiled against the amd64 or the arm64 kernels, end and leave memory exactly as over the portable kernels: for every assignment of source and destination pointers to variables, every CPU path and every BP. The exception is what multiplies for p503 on arm64, where products and squares of reduced elements can be wrong (refuted with a witness); Import is right there too. Import stays within the multiplication's bounds for all byte strings, also when it ORs into a key already in use.", "quantifier": "for all memories of reduced values, pointer choices, feature flags, byte strings", "why_tests_cant": "fp2.go reuses one temporary across multiplication and reduction while the assembly reduction overwrites its operand; whether that is harmless depends on aliasing and on the CPU, of which a test sees one.", "anchors": ["dh/sidh/internal/p434/fp2.go: add, sub, mul, inv, sqr, CondSwap, ToMontgomery, FromMontgomery", "dh/sidh/internal/p503/fp2.go", "dh/sidh/internal/p751/fp2.go", "dh/sidh/internal/p434/arith_amd64.s", "dh/sidh/internal/p503/arith_arm64.s", "dh/sidh/internal/p751/arith_arm64.s", "dh/sidh/sidh.go: PublicKey.Import"]}
{"id": "C74", "title": "SIDH keys and secrets do not depend on the CPU", "statement": "For all private keys, and all public keys made of reduced values, key generation and secret derivation over the assembly kernels (amd64, all three primes; arm64, p434 and p751) never get stuck and give what the portable code gives (including the same panics); so two parties on machines of different kinds or with different CPU features, and any secrets of the right length, derive the same bytes.", "quantifier": "for all private and public keys, feature flags of both machines, frame addresses", "why_tests_cant": "A test machine has one set of CPU features, and a wrong carry on one path shows on few keys.", "anchors": ["dh/sidh/internal/p434/core.go: PublicKeyGenA, PublicKeyGenB, DeriveSecretA, DeriveSecretB", "dh/sidh/internal/p503/core.go", "dh/sidh/internal/p751/core.go", "dh/sidh/internal/p434/curve.go", "dh/sidh/internal/p434/arith_amd64.s", "dh/sidh/internal/p751/arith_arm64.s"]}
{"id": "C75", "title": "The amd64 Keccak permutation is FIPS 202's", "statement": "For every state of 25 lanes and every BP, the assembly permutation ends, touches only its frame and the 25 lanes, depends on no register or frame word left by others, leaves Keccak-p[1600,24] of the lanes (hence what the portable build leaves) and gives back BP.", "quantifier": "for all states of 25 64-bit words and all values of BP", "why_tests_cant": "The code keeps six lanes complemented and merges column parities across rounds in registers; an error that cancels on tested inputs, or a use of stale registers, would not show in test vectors.", "anchors": ["hash/sha3/keccakf_amd64.s: keccakF1600, mKeccakRound", "hash/sha3/keccakf.go: keccakF1600"]}
{"id": "C76", "title": "The arm64 SIDH field kernels except multiplication compute what the portable code computes", "statement": "On arm64, for p503 and p751 and all words (not only reduced values), addition, subtraction, double-width addition and subtraction, strong reduction and conditional swap end, touch only their arguments, and give what the portable code gives, whichever pointers coincide; Montgomery reduction does so for operands below p*2^(64n) and leaves its operand unchanged. The conditional swap swaps completely for any non-zero byte, where the portable code mixes the operands for bytes above 1.", "quantifier": "for all word arrays, choice bytes and pointer coincidences", "why_tests_cant": "The branch of a lost or invented carry is taken on a negligible fraction of inputs, and tests run on one architecture.", "anchors": ["dh/sidh/internal/p503/arith_arm64.s: cswapP503, addP503, subP503, adlP503, sulP503, modP503, rdcP503", "dh/sidh/internal/p751/arith_arm64.s: cswapP751, addP751, subP751, adlP751, sulP751, modP751, rdcP751"]}
{"id": "C77", "title": "The arm64 mulP751 multiplies all words correctly", "statement": "On arm64 mulP751 leaves in z the 24-word product of x and y, for all 12-word x and y (also those for which the amd64 code is wrong), also when x and y are the same array, and leaves x and y unchanged.", "quantifier": "for all 12-word x and y", "why_tests_cant": "The two levels of Karatsuba have carries that are set with probability around 2^-64 or less.", "anchors": ["dh/sidh/internal/p751/arith_arm64.s: mulP751"]}
{"id": "C78", "title": "The arm64 mulP503 is wrong in exactly one case, which field elements can reach", "statement": "With x = xl + 2^256 xh and y = yl + 2^256 yh, T = xl yh + xh yl and H = floor(xl yl / 2^256), the arm64 mulP503 leaves x*y + 2^832 (mod 2^1024) in z if T + H < 2^256 and ((T + xh yh) mod 2^256) + H >= 2^256, and x*y otherwise; the same for squares. The case occurs for field elements below p, and then the value after Montgomery reduction is not the product modulo p. It does not occur when a factor is below 2^256 or T is at least 2^256.", "quantifier": "for all 8-word x and y", "why_tests_cant": "For random operands the case has probability far below 2^-200, so neither vectors nor random tests can meet it.", "anchors": ["dh/sidh/internal/p503/arith_arm64.s: mulP503"]}
{"id": "C79", "title": "CSIDH keys, validation and shared secrets do not depend on the CPU", "statement": "In the amd64 build, with the field product dispatched to the MULX/ADX machine code or to mulGeneric over the machine code of mul576, and mul512 and cswap512 in machine code, GeneratePublicKey, Validate and DeriveSecret never get stuck and return exactly what the portable build returns on the same key and random bytes: result, output buffer and bytes consumed. This holds on every CPU (BMI2 and ADX present or not), whatever BP holds, and with the pointer aliasings of the curve code as they are.", "quantifier": "for all CPUs, BP contents, private keys, public keys of eight words and random sources", "why_tests_cant": "A test runs on one CPU; a group action makes some half a million products, and a carry error in one path shows on a fraction of operands far too small to meet.", "anchors": ["dh/csidh/fp511_amd64.go", "dh/csidh/fp511.go", "dh/csidh/curve.go", "dh/csidh/csidh.go:121-195,271-332"]}
{"id": "C80", "title": "No machine-code field routine executes an instruction the CPU lacks", "statement": "On every CPU, whatever CPUID reports, with the feature flags that utils computes from it, no routine of fp511_amd64.s and of the three arith_amd64.s meets a MULX on a CPU not reporting BMI2 or an ADCX or ADOX on one not reporting ADX, whatever registers, arguments and memory are. The flag tests are needed: mulBmiAsm without the test in Go, and mul512, rdc and (p434, p503) mul with flags claiming more than the CPU has, do meet one.", "quantifier": "for all CPUs, all routines, all register, argument and memory contents", "why_tests_cant": "An illegal instruction only traps on a CPU without the extension; test machines have all of them.", "anchors": ["dh/csidh/fp511_amd64.go:47", "dh/csidh/fp511_amd64.s", "dh/sidh/internal/p434/arith_amd64.s", "dh/sidh/internal/p503/arith_amd64.s", "dh/sidh/internal/p751/arith_amd64.s", "utils/cpuid_amd64.go"]}
{"id": "C81", "title": "GeneratePrivateKey of the alternative SIDH API hides a failing random source; Init keeps an old public key", "statement": "GeneratePrivateKey equals Generate when the source has enough bytes. With fewer it returns normally, and the secret bytes S || scalar are the bytes delivered followed by the bytes the key held before, without the fixed top bit. A source that fails at once leaves the key unchanged; for a new key of any field and variant the scalar is then 0, and public key generation and key agreement accept it. Key.Init on a used public key keeps the old points: Export still gives the old key and the next Import mixes it into the new one.", "quantifier": "for all keys shaped as the constructors shape them, all sources, all later registries", "why_tests_cant": "Tests use sources that never fail and new objects.", "anchors": ["dh/sidh/sidh.go:293-323"]}
{"id": "C82", "title": "SHA-3, SHAKE and cSHAKE over the amd64 machine code are the ones of the standards", "statement": "In the amd64 build, where sha3.go and shake.go call the machine code of keccakf_amd64.s, every program of Write, Read, Sum, Reset and Clone calls on any set of objects runs without getting stuck, whatever BP holds at each call, and returns what the ideal objects return: the output of the FIPS 202 sponge on the message absorbed so far. It returns what the portable build returns, with either xor implementation. The cSHAKE constructors and the one-shot SHAKE functions likewise.", "quantifier": "for all programs, objects, byte strings and contents of BP", "why_tests_cant": "A wrong lane shows only in digests that depend on it; the state handed to the assembly is never inspected by tests.", "anchors": ["hash/sha3/sha3.go", "hash/sha3/shake.go", "hash/sha3/keccakf_amd64.s", "hash/sha3/keccakf_amd64.go"]}
{"id": "C83", "title": "The random generator against the CPU it runs on", "statement": "NewCtrDrbg picks the AES-NI cipher when utils.X86.HasAES is set. With the machine extended by the invalid-opcode exception for the AES-NI instructions: on a CPU with AES-NI it behaves as the machine of the other theorems; on one without, every key schedule (16, 24, 32 bytes) and every block operation of the assembly dies. The first Init of a new generator dies exactly on the CPUs whose leaf 1 ECX bit 25 (AES-NI) is clear while bit 25 of leaf 1 EBX (part of the APIC id, which HasAES reads by mistake) is set; on every other CPU it is accepted and leaves the same V, Key, counter, strength and scratch block as the portable generator. The claim that the generator works on every amd64 CPU is refuted by two descriptions that differ in the APIC id only.", "quantifier": "every CPUID description, entropy, personalisation string, key and block", "why_tests_cant": "The machines tests run on have AES-NI, and the flag then only decides the speed.", "anchors": ["drbg/ctr_drbg.go:37-42", "drbg/ctr_drbg.go:55-86", "drbg/internal/aes/cipher_asm.go:28-69", "drbg/internal/aes/asm_amd64.s", "utils/cpuid_amd64.go:19-33"]}
{"id": "C84", "title": "The SIDH key API and SIKE do not depend on the CPU", "statement": "With every field operation a run of the amd64 or arm64 machine code, PublicKey.Import and Export, GeneratePublicKey, DeriveSecret, Encapsulate and Decapsulate end exactly as in the portable build: same key, bytes, object, error and panics, and no run leaves its arrays or gets stuck; keys keep coordinates below 2p, so every later call is covered too. Two parties on two different machines that encapsulate and decapsulate get the same key. arm64 is claimed for p434 and p751 only (p503 multiplies wrongly there, C78), except for Import and Export.", "quantifier": "every machine (CPU flags, frame address, BP), parameter set, key, object history, buffer and random source", "why_tests_cant": "A test runs on the one CPU it is compiled for.", "anchors": ["dh/sidh/sidh.go:75-126", "dh/sidh/sidh.go:224-289", "dh/sidh/sike.go:58-262", "dh/sidh/internal/p434/arith_amd64.s", "dh/sidh/internal/p503/arith_amd64.s", "dh/sidh/internal/p751/arith_amd64.s"]}
{"id": "C85", "title": "SIKE with the hash in machine code too", "statement": "With the field operations and, on amd64, the Keccak permutation under every SHAKE256 call runs of the machine code, Encapsulate and Decapsulate on a KEM object after any history end exactly as in the portable build: same object, ciphertext, secret, error and panics, and no run is stuck. The hash calls give the SHAKE256 of FIPS 202. Every string hashed is a byte string because every producer (random source, key export, shared secret, xor, constant-time pick) keeps bytes bytes. Two parties on two different machines get the same key. arm64 is claimed for p434 and p751 only.", "quantifier": "every machine (CPU flags, frame address, BP), parameter set, key, object history, buffer and random source", "why_tests_cant": "A test runs on the one CPU it is compiled for, and mixes field and hash code so a fault in one can hide in the other's output.", "anchors": ["dh/sidh/sike.go:58-262", "hash/sha3/keccakf_amd64.s", "hash/sha3/keccakf_amd64.go", "hash/sha3/shake.go"]}
{"id": "C86", "title": "The multi-recipient KEM does not depend on the CPU", "statement": "With the field operations and, on amd64, the Keccak permutation runs of the machine code, MultiKEM.Encapsulate and Decapsulate on an object after any history end exactly as in the portable build: same object (shared part, ciphertexts, message, scratch, hash), secret, error and panics, and no run is stuck. The shared secret is a byte string whatever the scratch array held before. So on every machine Encapsulate produces, for any list of recipients, the shared part, the ciphertexts and the key of the paper. arm64 is claimed for p434 and p751 only.", "quantifier": "every machine (CPU flags, frame address, BP), parameter set, list of recipients, key, object history, buffer and random source", "why_tests_cant": "A test runs on the one CPU it is compiled for.", "anchors": ["kem/mkem/sike.go:227-283", "kem/mkem/sike.go:289-373", "hash/sha3/keccakf_amd64.s", "dh/sidh/internal/p503/arith_amd64.s"]}
{"id": "C87", "title": "The CSIDH based encryption does not depend on the CPU", "statement": "In the amd64 build, with the CSIDH field routines and the Keccak permutation runs of the machine code, PKE.Enc, PKE.Dec and MultiPKE.Encrypt end exactly as in the portable build: same object, ciphertexts, message and panics, and no run is stuck, with and without BMI2 and ADX. Any sequence of calls on one object shows the caller what the specification of C58 shows, including the stale hash state after Enc and Dec. The mask is the SHAKE128 of FIPS 202.", "quantifier": "every CPU (BMI2, ADX, contents of BP), key, message, ciphertext, list of recipients, sequence of calls and random source", "why_tests_cant": "A test runs on the one CPU it is compiled for and calls each object once.", "anchors": ["kem/mkem/csidh.go:50-111", "dh/csidh/fp511_amd64.s", "hash/sha3/keccakf_amd64.s"]}
{"id": "C88", "title": "The SIDH exchange between two different machines", "statement": "Alice generates her public key, exports it, imports Bob's and derives on one machine (any amd64 CPU, or arm64), Bob on another. All these runs of the machine code end, no import is refused, and both derive the same secret, which is the one of the portable build; it has the right length, consists of bytes, and bytes of the output buffer beyond it are untouched. arm64 is claimed for p434 and p751 only.", "quantifier": "every pair of machines (CPU flags, frame address, BP), parameter set, private keys and buffers", "why_tests_cant": "A test plays both sides on the CPU it is compiled for.", "anchors": ["dh/sidh/sidh.go:75-126", "dh/sidh/sidh.go:224-289", "dh/sidh/internal/p751/arith_amd64.s", "dh/sidh/internal/p751/arith_arm64.s"]}
{"id": "C89", "title": "CSIDH and the encryption on it, run on the CTR_DRBG", "statement": "Key generation, validation, the group action, DeriveSecret, PKE.Enc, PKE.Dec and MultiPKE.Encrypt take a whole number of 64-byte reads from their source, and a successful result is a function of exactly the bytes of those reads, whatever would follow. The CtrDrbg object serves any number of such reads without panic or error, and neither the bytes nor the object depend on what the reused buffer held; after Init the bytes are those of k successive SP 800-90A requests of 64 bytes. Hence a call on the generator has one result and leaves one generator: running it on any long enough finite supply gives that result, and what is left of the supply is what the generator delivers next; calls one after the other on one generator are the calls on the generators each leaves.", "quantifier": "every generator object of the right shape, key, message, ciphertext, list of recipients, hash state, buffer and length of the supply", "why_tests_cant": "A test sees one seed; it cannot tell that no byte beyond the last read, and no stale byte of a buffer, has any influence.", "anchors": ["dh/csidh/csidh.go:44-64", "dh/csidh/csidh.go:219-241", "kem/mkem/csidh.go:22-111", "drbg/ctr_drbg.go:131-162"]}
