{
 "claims": [
  {
   "property": "C01",
   "status": "proved",
   "theorems": [
    "C01_sm3_digest_correct"
   ],
   "note": "Full model of sm3.go and compress.go; every message and chunking."
  },
  {
   "property": "C02",
   "status": "proved",
   "theorems": [
    "C02_sm3_history",
    "C02_sm3_reset_fresh"
   ],
   "note": "All Write/Sum/Reset histories refine an object that only remembers the message."
  },
  {
   "property": "C03",
   "status": "proved",
   "theorems": [
    "C03_sm3_write_count_only_empty",
    "C03_sm3_sum_append_only_empty",
    "C03_sm3_write_contract_refuted",
    "C03_sm3_sum_contract_refuted"
   ],
   "note": "FINDING: io.Writer and hash.Hash contracts hold for empty arguments only; witnesses given."
  },
  {
   "property": "C04",
   "status": "proved",
   "theorems": [
    "C04_keccak_permutation"
   ],
   "note": "portable keccakf.go; the amd64 assembly is not covered here"
  },
  {
   "property": "C05",
   "status": "proved",
   "theorems": [
    "C05_sha3_digests_correct"
   ],
   "note": "both xor builds"
  },
  {
   "property": "C06",
   "status": "proved",
   "theorems": [
    "C06_shake_stream",
    "C06_shakesum"
   ],
   "note": ""
  },
  {
   "property": "C07",
   "status": "proved",
   "theorems": [
    "C07_write_after_read",
    "C07_reset_fresh",
    "C08_history_refines_ideal"
   ],
   "note": ""
  },
  {
   "property": "C08",
   "status": "proved",
   "theorems": [
    "C08_history_refines_ideal"
   ],
   "note": ""
  },
  {
   "property": "C09",
   "status": "proved",
   "theorems": [
    "C09_sum_appends_and_advances",
    "C09_sum_keeps_state_refuted"
   ],
   "note": "the hash.Hash contract is refuted; the actual behaviour is proved"
  },
  {
   "property": "C10",
   "status": "proved",
   "theorems": [
    "C10_xor_builds_agree",
    "C10_all_lengths_refuted"
   ],
   "note": ""
  },
  {
   "property": "C11",
   "status": "proved",
   "theorems": [
    "C11_left_encode",
    "C11_left_encode_minimal",
    "C11_left_encode_prefix_free"
   ],
   "note": ""
  },
  {
   "property": "C12",
   "status": "proved",
   "theorems": [
    "C12_bytepad",
    "C12_bytepad_exact_iff"
   ],
   "note": ""
  },
  {
   "property": "C13",
   "status": "proved",
   "theorems": [
    "C13_cshake128",
    "C13_cshake256",
    "C13_cshake_all_inputs_refuted"
   ],
   "note": "equality with SP 800-185 off the aligned case, exact characterisation and refutation on it"
  },
  {
   "property": "C14",
   "status": "proved",
   "theorems": [
    "C14_customisation_unambiguous"
   ],
   "note": ""
  },
  {
   "property": "C15",
   "status": "proved",
   "theorems": [
    "C15_aes_encrypt_is_fips197",
    "C15_aes_tables",
    "C15_sbox_inverse"
   ],
   "note": "Portable cipher; all three key sizes."
  },
  {
   "property": "C16",
   "status": "proved",
   "theorems": [
    "C16_aes_decrypt_is_invcipher",
    "C16_aes_inverse",
    "C16_aes_roundtrip"
   ],
   "note": ""
  },
  {
   "property": "C17",
   "status": "proved",
   "theorems": [
    "C17_setkey_rejects_exactly",
    "C17_setkey_no_residue",
    "C17_block_bounds"
   ],
   "note": ""
  },
  {
   "property": "C18",
   "status": "proved",
   "theorems": [
    "C18_agrees_with_portable_32",
    "C18_fips197_32",
    "C18_always_14_rounds",
    "C18_same_panics",
    "C18_short_keys",
    "C18_short_keys_not_fips197_refuted",
    "C18_short_key_remembers",
    "C18_bad_key_length",
    "C18_setkey_total"
   ],
   "note": "Machine code of asm_amd64.s on an AES-NI machine model. 32-byte keys: equal to FIPS-197 and to the portable cipher. Shorter keys: exact description, and a refutation of the FIPS-197 claim. Wrong lengths leave the arrays."
  },
  {
   "property": "C19",
   "status": "proved",
   "theorems": [
    "C19_ctr_drbg_sp800_90a"
   ],
   "note": "Portable cipher; entropy and other inputs padded/truncated to 48 bytes as the code does."
  },
  {
   "property": "C20",
   "status": "proved",
   "theorems": [
    "C20_history_exact",
    "C20_tail_repeats",
    "C20_short_read_stale_key",
    "C20_unaligned_sp800_90a_refuted"
   ],
   "note": "Exact description of the code for every history and length; the SP 800-90A claim without alignment is refuted."
  },
  {
   "property": "C21",
   "status": "proved",
   "theorems": [
    "C21_inc",
    "C21_no_repeat"
   ],
   "note": ""
  },
  {
   "property": "C22",
   "status": "proved",
   "theorems": [
    "C22_first_init_accepts_anything",
    "C22_reinit",
    "C22_reinit_is_fresh_refuted"
   ],
   "note": ""
  },
  {
   "property": "C23",
   "status": "proved",
   "theorems": [
    "C23_read_total",
    "C23_inputs_padded"
   ],
   "note": ""
  },
  {
   "property": "C24",
   "status": "proved",
   "theorems": [
    "C24_field_ops",
    "C24_mul_unreduced",
    "C24_inplace"
   ],
   "note": "portable (Go) field code; in-place calls covered at limb level"
  },
  {
   "property": "C25",
   "status": "proved",
   "theorems": [
    "C25_stale_carry"
   ],
   "note": ""
  },
  {
   "property": "C26",
   "status": "proved",
   "theorems": [
    "C26_mul512",
    "C26_mul576",
    "C26_compare",
    "C26_select",
    "C26_cswap",
    "C26_sub512"
   ],
   "note": ""
  },
  {
   "property": "C27",
   "status": "proved",
   "theorems": [
    "C27_modexp",
    "C27_modexp64",
    "C27_total"
   ],
   "note": ""
  },
  {
   "property": "C28",
   "status": "proved",
   "theorems": [
    "C28_constants"
   ],
   "note": ""
  },
  {
   "property": "C29",
   "status": "proved",
   "theorems": [
    "C29_csidh_prime",
    "C29_sidh_primes"
   ],
   "note": "N+1 certificates checked with primitive 63-bit integers (stdlib Uint63 axioms)"
  },
  {
   "property": "C30",
   "status": "proved",
   "theorems": [
    "C30_inverse",
    "C30_quadres"
   ],
   "note": "uses primality of p (stdlib Uint63 axioms)"
  },
  {
   "property": "C31",
   "status": "proved",
   "theorems": [
    "C31_keygen",
    "C31_reachable"
   ],
   "note": "Exact characterisation of the key from the stream, block consumption, error condition; every in-range vector reachable. Sample 2j goes to exponent 2j+1 and vice versa (nibble order)."
  },
  {
   "property": "C32",
   "status": "proved",
   "theorems": [
    "C32_private_codec",
    "C32_no_range_check"
   ],
   "note": "All lengths; longer inputs panic; out-of-range exponents accepted."
  },
  {
   "property": "C33",
   "status": "proved",
   "theorems": [
    "C33_import_or",
    "C33_export",
    "C33_roundtrip",
    "C33_roundtrip_key",
    "C33_import_used_refuted"
   ],
   "note": "Import ORs into the key: exact for a zero key; replacing a used key is refuted by a witness."
  },
  {
   "property": "C34",
   "status": "proved",
   "theorems": [
    "C34_randfp",
    "C34_uniform"
   ],
   "note": "First candidate below p; each element drawn by exactly two blocks; None iff no whole block gives a candidate."
  },
  {
   "property": "C35",
   "status": "proved",
   "theorems": [
    "C35_reject",
    "C35_derive"
   ],
   "note": "Rejection without reading randomness for A>=p, A=2, A=-2 (Montgomery form); output untouched on false."
  },
  {
   "property": "C36",
   "status": "proved",
   "theorems": [
    "C36_field",
    "C36_group",
    "C36_xdbl",
    "C36_xadd",
    "C36_xdbladd",
    "C36_monteval",
    "C36_side"
   ],
   "note": "Limb code simulates field arithmetic modulo P; chord-and-tangent law proved to be an abelian group (associativity included). xAdd needs x(P-Q) affine and nonzero, as the formula does."
  },
  {
   "property": "C37",
   "status": "proved",
   "theorems": [
    "C37_xmul",
    "C37_infinity",
    "C37_zero_scalar",
    "C37_origin",
    "C37_all_points_refuted"
   ],
   "note": "x([k]P) for 0<k<2^512 and x(P) nonzero, in place or not; k=0 gives [2]P and (0,0) gives Z=0, both stated."
  },
  {
   "property": "C38",
   "status": "proved",
   "theorems": [
    "C38_isogeny_count",
    "C38_cofactors",
    "C38_total"
   ],
   "note": "For any field implementation and any random points. Counts xIso evaluations per index and side."
  },
  {
   "property": "C39",
   "status": "proved",
   "theorems": [
    "C39_add_sub",
    "C39_mul",
    "C39_wide_mul",
    "C39_reduction",
    "C39_strong_reduction",
    "C39_wide_add_sub",
    "C39_cswap"
   ],
   "note": "portable arithmetic (arith_generic.go), all three primes"
  },
  {
   "property": "C40",
   "status": "proved",
   "theorems": [
    "C40_represents",
    "C40_add_sub_mul_sqr",
    "C40_inv"
   ],
   "note": ""
  },
  {
   "property": "C41",
   "status": "proved",
   "theorems": [
    "C41_constants",
    "C41_one_half_six",
    "C41_to_montgomery",
    "C41_from_montgomery",
    "C41_roundtrip",
    "C41_roundtrip'",
    "C41_p34"
   ],
   "note": ""
  },
  {
   "property": "C42",
   "status": "proved",
   "theorems": [
    "C42_import_refuses",
    "C42_import_used",
    "C42_import_fresh",
    "C42_export",
    "C42_export_short",
    "C42_roundtrip",
    "C42_import_keeps",
    "C42_import_clears_refuted"
   ],
   "note": "Import ORs into stored words; round trip iff all coordinates reduced; documented clearing refuted"
  },
  {
   "property": "C43",
   "status": "proved",
   "theorems": [
    "C43_new",
    "C43_import_refuses",
    "C43_import",
    "C43_export",
    "C43_roundtrip",
    "C43_import_sidh",
    "C43_import_reinit_refuted"
   ],
   "note": "all variants and primes; re-initialised SIKE key object keeps S (refutation)"
  },
  {
   "property": "C44",
   "status": "proved",
   "theorems": [
    "C44_error",
    "C44_generate",
    "C44_generate_p434A",
    "C44_p434A_range_refuted"
   ],
   "note": "exact value of the scalar in terms of the random bytes"
  },
  {
   "property": "C45",
   "status": "proved",
   "theorems": [
    "C45_traversalA",
    "C45_traversalB",
    "C45_hypotheses_met"
   ],
   "note": "All three parameter sets, both sides, any number of pushed points; the traversal returns (no out-of-range access) and ends on the curve and images of the one-isogeny-at-a-time chain on points."
  },
  {
   "property": "C46",
   "status": "proved",
   "theorems": [
    "C46_dbladd",
    "C46_pow2k",
    "C46_pow3k",
    "C46_coeffs",
    "C46_coeffs_back",
    "C46_recoverA",
    "C46_jinvariant",
    "C46_batch3inv",
    "C46_isogeny3",
    "C46_isogeny4"
   ],
   "note": "On the limb vectors of all three parameter sets. The isogenies are given as explicit point maps with their kernel and codomain and as homomorphisms of the x-line; that the point maps preserve the sign of y under addition is not stated."
  },
  {
   "property": "C47",
   "status": "proved",
   "theorems": [
    "C47_ladder",
    "C45_hypotheses_met"
   ],
   "note": "Any curve, any B of finite order with no P+[j]B at infinity or above x=0; C45_hypotheses_met shows the bases satisfy this."
  },
  {
   "property": "C48",
   "status": "proved",
   "theorems": [
    "C48_generate",
    "C48_derive",
    "C48_short_scalar",
    "C48_accepted"
   ],
   "note": "panics characterised for registered parameters; DeriveSecret also panics on a too short output buffer, and both on a too short Scalar field"
  },
  {
   "property": "C49",
   "status": "proved",
   "theorems": [
    "C49_params",
    "C49_params_panics",
    "C49_register",
    "C49_write_once",
    "C49_builtin"
   ],
   "note": ""
  },
  {
   "property": "C50",
   "status": "proved",
   "theorems": [
    "C50_sike",
    "C50_encapsulate_value",
    "C50_pke",
    "C50_matches"
   ],
   "note": "Unconditional: the SIDH agreement is C45-C47. Any two objects with any history of operations, any registered parameter set; key buffers longer than the secret keep their tail. C50_pke is the internal encrypt/decrypt pair. Objects model the Go code with keys passed by value and non-overlapping slices."
  },
  {
   "property": "C51",
   "status": "proved",
   "theorems": [
    "C51_sike",
    "C51_any_public_key"
   ],
   "note": "Accepts exactly the ciphertexts that encapsulation for this key can produce; all others give SHAKE256(S||ct). Note that only the first part is compared by the code; that the second part is also bound follows since the message is recovered from it."
  },
  {
   "property": "C52",
   "status": "proved",
   "theorems": [
    "C52_encapsulate",
    "C52_decapsulate",
    "C52_oversize",
    "C52_unallocated"
   ],
   "note": "Exact panic conditions and error conditions; a public key of another field is silently rejected by Decapsulate. C52_oversize gives both derived values; they are hashes of two different strings, so equal only on a SHAKE256 collision."
  },
  {
   "property": "C53",
   "status": "proved",
   "theorems": [
    "C53_encapsulate",
    "C53_decapsulate",
    "C53_reset"
   ],
   "note": "Two objects with any two histories (and either sponge code path, any later registry) give the same outcome."
  },
  {
   "property": "C54",
   "status": "proved",
   "theorems": [
    "C54_same_object",
    "C54_other_object",
    "C54_fresh_object",
    "C54_after_reset",
    "C54_accepts",
    "C54_paper",
    "C54_panics",
    "C54_unallocated"
   ],
   "note": "Unexported array ct0 is set by 'receives' (no API does it). Besides the claim: Reset between the calls, which the documentation asks for, makes the encapsulating object reject too; the algorithm of the paper is correct on the same inputs (C54_paper)."
  },
  {
   "property": "C55",
   "status": "proved",
   "theorems": [
    "C55_encapsulate",
    "C55_only_own_key",
    "C55_panics",
    "C55_allocated"
   ],
   "note": "Any history of MultiKEM and embedded KEM operations; exact panic condition; Allocate makes room for exactly the recipients asked for."
  },
  {
   "property": "C56",
   "status": "proved",
   "theorems": [
    "C56_allocated",
    "C56_unallocated",
    "C56_enc",
    "C56_dec",
    "C56_roundtrip",
    "C56_commute",
    "C56_commute_trivial"
   ],
   "note": "Commutativity of the class group action is the stated premise (commute); it is not proved in general. Rng is the list of bytes still to be delivered."
  },
  {
   "property": "C57",
   "status": "proved",
   "theorems": [
    "C57_enc",
    "C57_bad_keys",
    "C57_dec",
    "C57_multi",
    "C57_multi_first"
   ],
   "note": "ss is a local array, zero in Enc and Dec; in Encrypt it is shared by the recipients."
  },
  {
   "property": "C58",
   "status": "proved",
   "theorems": [
    "C58_history",
    "C58_allocated",
    "C58_clean_after",
    "C58_stale_after",
    "C58_clean",
    "C58_stale",
    "C58_receive",
    "C58_too_many",
    "C58_history_independent_refuted"
   ],
   "note": "Recipient decrypts iff its mask is the entry's mask; on a stale object the first mask is bytes 16..31 of SHAKE128 of the previous secret."
  },
  {
   "property": "C59",
   "status": "proved",
   "theorems": [
    "C59_flags",
    "C59_adx_bmi2_sound",
    "C59_HasAES_refuted",
    "C59_HasAES_ignores_ecx",
    "C59_mulRdc_any_cpu"
   ],
   "note": "CPUID is an arbitrary function from leaf and subleaf to four registers."
  },
  {
   "property": "C60",
   "status": "proved",
   "theorems": [
    "C60_mul512",
    "C60_mul576",
    "C60_cswap512",
    "C60_mulBmiAsm",
    "C60_mulRdc"
   ],
   "note": "The instruction lists are transcribed from fp511_amd64.s with the macros expanded; the machine is X86.v. mulBmiAsm and mulRdc need the second factor to be at most p, as mulGeneric's own bound does; cswap512 needs a choice byte of 0 or 1."
  },
  {
   "property": "C61",
   "status": "proved",
   "theorems": [
    "C61_accept",
    "C61_reject",
    "C61_complete"
   ],
   "note": "The step from N^2>16P to supersingularity (Hasse bound) is not formalised; acceptance is stated as existence of a point of that order."
  },
  {
   "property": "C62",
   "status": "proved",
   "theorems": [
    "C62_image",
    "C62_kernel",
    "C62_codomain"
   ],
   "note": "Formulas computed by the code; that the resulting curve is the quotient curve (Velu) is not formalised for general l."
  },
  {
   "property": "C63",
   "status": "proved",
   "theorems": [
    "C63_group_action",
    "C63_public_key",
    "C63_secret"
   ],
   "note": ""
  },
  {
   "property": "C64",
   "status": "proved",
   "theorems": [
    "C64_agreement"
   ],
   "note": "Uses primality and basis certificates checked with native 63-bit integers."
  },
  {
   "property": "C65",
   "status": "proved",
   "theorems": [
    "C65_exchange"
   ],
   "note": "portable Go code path"
  },
  {
   "property": "C66",
   "status": "proved",
   "theorems": [
    "C66_encapsulate_reset",
    "C66_decapsulate_reset"
   ],
   "note": "Decapsulate case for a public key of the object's field."
  },
  {
   "property": "C67",
   "status": "proved",
   "theorems": [
    "C67_identity",
    "C67_public",
    "C67_secret",
    "C67_succeeds"
   ],
   "note": ""
  },
  {
   "property": "C68",
   "status": "proved",
   "theorems": [
    "C68_cipher_choice_is_invisible",
    "C68_uninitialised_refuted"
   ],
   "note": "Simulation between the two generators over any call history; witness for the uninitialised object."
  },
  {
   "property": "C69",
   "status": "proved",
   "theorems": [
    "C69_add",
    "C69_sub",
    "C69_adl",
    "C69_sul",
    "C69_mod",
    "C69_cswap"
   ],
   "note": "all words, all five pointer coincidences, all flags"
  },
  {
   "property": "C70",
   "status": "proved",
   "theorems": [
    "C70_mul",
    "C70_mul_field",
    "C70_mul503_all_words_refuted",
    "C70_mul751_all_words_refuted"
   ],
   "note": "equality inside the bounds, refutation outside"
  },
  {
   "property": "C71",
   "status": "proved",
   "theorems": [
    "C71_rdc",
    "C71_rdc_keeps_x_refuted"
   ],
   "note": "operands below p*R; the operand may be overwritten"
  },
  {
   "property": "C72",
   "status": "proved",
   "theorems": [
    "C72_mul_bp",
    "C72_rdc_bp",
    "C72_mul434_keeps_bp_refuted",
    "C72_rdc751_keeps_bp_refuted"
   ],
   "note": "exactly which routines keep BP; the blanket claim refuted"
  },
  {
   "property": "C73",
   "status": "proved",
   "theorems": [
    "C73_add",
    "C73_sub",
    "C73_mul",
    "C73_sqr",
    "C73_inv",
    "C73_cswap",
    "C73_fromMontgomery",
    "C73_import",
    "C73_mul503_arm_refuted",
    "C73_sqr503_arm_refuted"
   ],
   "note": "fp2.go on a memory of variables with arbitrary pointers, calling the modelled machine code of amd64 or arm64; mul, sqr and inv exclude p503 on arm64, where the first two are refuted; C73_import covers BytesToFp2 followed by ToMontgomery in place, on every machine."
  },
  {
   "property": "C74",
   "status": "proved",
   "theorems": [
    "C74_publicKeyA",
    "C74_publicKeyB",
    "C74_secretA",
    "C74_secretB",
    "C74_agreement"
   ],
   "note": "curve.go and core.go over the machine-code field calls of amd64 or arm64 (not p503 on arm64, see C73, C78); each field call runs on variables of its own, which C73 shows makes no difference."
  },
  {
   "property": "C75",
   "status": "proved",
   "theorems": [
    "C75_keccak_asm",
    "C75_same_build"
   ],
   "note": "machine code of keccakf_amd64.s"
  },
  {
   "property": "C76",
   "status": "proved",
   "theorems": [
    "C76_add",
    "C76_sub",
    "C76_adl",
    "C76_sul",
    "C76_mod",
    "C76_rdc",
    "C76_cswap",
    "C76_cswap_as_portable",
    "C76_cswap_all_bytes_as_portable_refuted"
   ],
   "note": "arm64 instruction semantics are those of the model (X86.v, ARM instructions); the frame pointer R29 and the assembler temporary R27, which mul and rdc overwrite, are not part of the results."
  },
  {
   "property": "C77",
   "status": "proved",
   "theorems": [
    "C77_mul751",
    "C77_mul751_product"
   ],
   "note": "Proved by a symbolic run of the machine code and a certificate of intermediate products checked in the kernel."
  },
  {
   "property": "C78",
   "status": "proved",
   "theorems": [
    "C78_mul503",
    "C78_sqr503",
    "C78_mul503_right",
    "C78_sqr503_right",
    "C78_right_when",
    "C78_mul503_field_refuted",
    "C78_montgomery503_refuted"
   ],
   "note": "Finding: a carry of the Karatsuba recombination is handled with the wrong sign. The expected property (the product of field elements) is refuted with a witness."
  },
  {
   "property": "C79",
   "status": "proved",
   "theorems": [
    "C79_product",
    "C79_powers",
    "C79_public_key",
    "C79_validate",
    "C79_secret",
    "C79_same_on_all_cpus",
    "C79_meaning"
   ],
   "note": "The callers are modelled as calls of the interpreted machine code with their pointer aliasings; no hypotheses on the run except that words are words and random bytes are bytes."
  },
  {
   "property": "C80",
   "status": "proved",
   "theorems": [
    "C80_sidh",
    "C80_csidh",
    "C80_fast",
    "C80_any_cpu",
    "C80_tests_needed"
   ],
   "note": "The globals hold the flags as CPUID reports them; operating-system support needs no check for these instructions. AES-NI is guarded by HasAES, which is no statement about AES (C59_HasAES_refuted)."
  },
  {
   "property": "C81",
   "status": "proved",
   "theorems": [
    "C81_enough",
    "C81_short",
    "C81_dead_source",
    "C81_dead_source_new",
    "C81_keyspace_refuted",
    "C81_public_init",
    "C81_init_keeps"
   ],
   "note": "C81_keyspace_refuted: the key from a short source is below the key space. Init of a public key is modelled for the field the key has already."
  },
  {
   "property": "C82",
   "status": "proved",
   "theorems": [
    "C82_new",
    "C82_history",
    "C82_same_build",
    "C82_shakesum"
   ],
   "note": "Callers are modelled over the interpreted machine code; BP is arbitrary at each call."
  },
  {
   "property": "C83",
   "status": "proved",
   "theorems": [
    "C83_with_aesni",
    "C83_opcodes",
    "C83_key_schedule_traps",
    "C83_block_traps",
    "C83_init_dies",
    "C83_init_lives",
    "C83_every_cpu_refuted",
    "C83_routines",
    "C83_init_any"
   ],
   "note": "C83_every_cpu_refuted is the negation of 'the generator works on every amd64 CPU', with two CPU descriptions as witness. Calls after Init are covered by C68 once Init has returned."
  },
  {
   "property": "C84",
   "status": "proved",
   "theorems": [
    "C84_export",
    "C84_import",
    "C84_public_key",
    "C84_secret",
    "C84_encapsulate",
    "C84_decapsulate",
    "C84_sike"
   ],
   "note": "arm64 with p503 is excluded where products are computed (C78). The hash is the portable model; C82 has it over the amd64 permutation."
  },
  {
   "property": "C85",
   "status": "proved",
   "theorems": [
    "C85_hash",
    "C85_encapsulate",
    "C85_decapsulate",
    "C85_sike"
   ],
   "note": "arm64 p503 excluded (C78)"
  },
  {
   "property": "C86",
   "status": "proved",
   "theorems": [
    "C86_encapsulate",
    "C86_decapsulate",
    "C86_value"
   ],
   "note": "arm64 p503 excluded (C78)"
  },
  {
   "property": "C87",
   "status": "proved",
   "theorems": [
    "C87_hash",
    "C87_enc",
    "C87_dec",
    "C87_encrypt",
    "C87_history"
   ],
   "note": ""
  },
  {
   "property": "C88",
   "status": "proved",
   "theorems": [
    "C88_exchange"
   ],
   "note": "arm64 p503 excluded (C78)"
  },
  {
   "property": "C89",
   "status": "proved",
   "theorems": [
    "C89_reads",
    "C89_supply",
    "C89_run",
    "C89_enough",
    "C89_determined",
    "C89_sequence",
    "C89_buffer",
    "C89_stream"
   ],
   "note": "All calls of dh/csidh and kem/mkem/csidh.go that read random bytes; a call that runs out of bytes is not successful and is excluded from reads64. Termination of the rejection loops on a particular seed is not claimed."
  }
 ]
}