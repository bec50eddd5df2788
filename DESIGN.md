# Formal model of henrydcase/nobs in Rocq (Coq 8.16.1)

## Method

* Every Go function in scope is transcribed as a total, computable Gallina function over `Z`
  (bytes are `Z` in `[0,256)`, words `Z` in `[0,2^32)` / `[0,2^64)`, wrap-around is written out).
  Arrays and slices are `list Z`; object state is a record; a method is a function from state to
  (state, result). Errors are values, panics are an explicit constructor. Where aliasing or stale
  contents matter (buffers that are not cleared, OR-ing imports, Sum's capacity case) the old
  contents are part of the model.
* For each area: `X_Spec.v` (the standard or the mathematical meaning, written from the standard and not
  from the code), `X_Model.v` (the transcription, each definition citing file and lines in /repo),
  `X_Proofs.v` (lemmas), `P_X.v` (the theorems named after the properties, concrete instances that meet
  their hypotheses, `Print Assumptions`).
* Call histories are lists of operations; the statement is a refinement to a small abstract machine
  (for instance "the message so far"), so it covers all interleavings.
* Randomness (`io.Reader`) is a finite list of bytes followed by failure, or an arbitrary stream, universally quantified.
* Loops that need not end (rejection sampling) carry fuel; theorems either hold for every amount or say how much is enough.
* Assembly is a list of instructions run by an interpreter; a register read before it is set, an access outside the
  given arrays and an undefined flag make the run stuck, so "it halts" includes memory safety.

## Trusted base

* The Coq kernel (8.16.1) and its `vm_compute` (evaluation of closed terms; `coqchk` repeats these without the VM).
* What `Print Assumptions` prints for each theorem (table at the end). No axiom is added here.
* The transcription from Go and from assembly to Gallina, made by reading the source; deviations are stated in the comment
  of each definition and below.
* The specification files and the hypotheses written in the theorem statements.

## What is modelled

| source | model | notes |
|---|---|---|
| `hash/sm3/{sm3,compress}.go` | `SM3_Model.v`, `SM3_Iface.v` | complete |
| `hash/sha3/{sha3,shake,xor*,keccakf}.go` | `Keccak_Model.v`, `Sha3_*.v` | complete; both xor implementations |
| `hash/sha3/keccakf_amd64.s` | `Keccak_Asm.v`, `Sha3_Amd.v` | its own small machine (moves, logic, rotations); the assembler's saving of BP is written out; `Sha3_Amd.v` is `sha3.go` and `shake.go` over it |
| `drbg/ctr_drbg.go` | `DRBG_Model.v`, `DRBG_AsmModel.v`, `DRBG_Cpu.v` | one object over the portable cipher, one over AES-NI; `DRBG_Cpu.v` adds the invalid-opcode exception and the choice made by `NewCtrDrbg`; `resistance` is unused and left out |
| `drbg/internal/aes/{generic,cipher,const}.go` | `AES_Model.v`, `AES_Tables.v` | complete |
| `drbg/internal/aes/{cipher_asm.go,asm_amd64.s}` | `AESNI.v`, `AESNI_Code.v`, `AESNI_Model.v` | machine code; `enc` and `dec` are separate 240-byte arrays (adjacent in Go); `dst`, `src` are 16-byte windows; flags after address arithmetic undefined |
| `utils/{cpu.go,cpuid_amd64.go}` | `CPU_Model.v` | CPUID is an arbitrary function of leaf and subleaf |
| `dh/csidh/{consts,fp511,fp511_generic,curve,csidh}.go` | `CSIDH_Field.v`, `CSIDH_Curve.v`, `CSIDH_Model.v`, `CSIDH_Alias.v` | complete for the portable build |
| `dh/csidh/fp511_amd64.{go,s}` | `X86*.v`, `CSIDH_Asm.v` | `mul512`, `mul576`, `cswap512`, `mulBmiAsm`, all branches |
| `dh/csidh` in the amd64 build | `CSIDH_AmdKern.v`, `CSIDH_Amd.v` | the callers of the machine code: the dispatch of `mulRdc`, `mulGeneric` with its scratch arrays, powers, curve functions with their pointers, `cofactorMul`, `groupAction`, `GeneratePublicKey`, `Validate`, `DeriveSecret`; BP is one value throughout, which no routine changes (C60); a swap of a variable with itself (never done) would count as stuck |
| `dh/sidh/internal/{p434,p503,p751}/{arith_generic,fp2,curve,core,params}.go` | `SIDH_Field.v`, `SIDH_Curve.v`, `SIDH_Impl.v`, `SIDH_Consts.v`, `SIDH_Inst.v` | one generic model, three instances |
| `dh/sidh/internal/{p434,p503,p751}/arith_amd64.s` | `SIDH_Asm434.v`, `SIDH_Asm503.v`, `SIDH_Asm751.v`, `SIDH_AsmModel.v` | all routines, all CPU paths; the assembler's saving of BP in framed routines is written out |
| `dh/sidh/internal/{p434,p503,p751}/{fp2,curve,core}.go` on amd64 and arm64 | `SIDH_AsmFp2.v`, `SIDH_AsmCore.v` | fp2.go on a memory of variables and pointers; curve.go and core.go over it, each call on variables of its own |
| `dh/sidh/internal/{p503,p751}/arith_arm64.s` | `SIDH_Arm503.v`, `SIDH_Arm751.v`, `SIDH_ArmModel.v` | all routines (there are no others for arm64); p434 uses the portable code there |
| `dh/sidh/sidh.go`, `common` | `SIDH_Api.v`, `SIDH_Bytes.v`, `SIDH_Alt.v` | key objects, import and export, registry, exchange, alternative API |
| `dh/sidh/sike.go` | `SIKE_Model.v`, `SIKE_Mach.v`, `SIKE_Amd.v` | all of it; `SIKE_Mach.v` is `sidh.go` and `sike.go` (without the unused `encrypt`) over the machine code of the field, with the hash of `Sha3_Model.v`; `SIKE_Amd.v` is the same with the hash over the amd64 permutation of `Sha3_Amd.v` (on arm64 there is no assembly for it) |
| `kem/mkem/*.go` | `MKEM_Model.v`, `CPKE_Model.v`, `CPKE_Drbg.v`, `MKEM_Amd.v`, `CPKE_Amd.v` | the SIKE based multi-recipient KEM and the CSIDH based encryption; `MKEM_Amd.v` and `CPKE_Amd.v` are the two over the machine code of field and hash; `CPKE_Drbg.v` puts the generator behind the random source |

## Simplifications

* Timing, constant-time behaviour and memory zeroisation are not modelled; neither are the garbage collector, `etc/`, tests and Makefiles.
  `subtle.ConstantTimeCompare` is list equality (with its length rule).
* arm64 machine (instructions `ARM` of `X86.v`): 64-bit registers, ZR as a zero operand, the carry flag in arm64's sense for subtraction; CMP followed by CSELs is one conditional per
  CSEL; LDP/STP are two moves. R29 and R27, which the kernels overwrite, and the stack are not part of the results.
* amd64 machine of `X86.v`: 64-bit registers, CF/OF/ZF as far as the code uses them (others become undefined), each pointer argument is its own
  array or shared as the aliasing pattern of the theorem says, the frame has the declared size. Macros are expanded by hand-checked text substitution;
  byte loads of feature flags (`MOVB`/`CMPB`) read the flag as a word. The code lists carry the source line of every instruction.
* SIDH fields: `Fp` arrays of the three primes are as long as the prime needs; the unused upper words of the shared Go array type are left out.
* SIDH points: the statements about isogenies speak of x-coordinates; the sign of y under addition is not stated. Images of points are covered by
  the isogeny formulas; that the composed isogeny has the intended kernel is proved from the strategy and the order certificates.
* CSIDH: the Hasse bound and Velu's formulas for general degree are not formalised; where a theorem needs commutativity of the action or
  the cardinality of a curve this is a hypothesis of that theorem. The trivial key, bookkeeping, ladder and validation results need none.
* SIDH API: slices have capacity equal to length; `Params` is a value; `Init` of a public key with another field is not modelled.
* SIKE / multi-recipient KEM: output slices do not overlap inputs; the reader is a list of bytes.
* CSIDH PKE: nil pointers other than an unallocated object are not modelled.

## Plan per property

| id | modelled | proof |
|----|----------|-------|
| C01-C03 | sm3.go, compress.go in full | unrolled compression = GB/T 32905 compression by stepping; buffer invariant; refinement of histories to "message so far"; witnesses for contract violations |
| C04 | keccakf.go | each unrolled round = theta/rho/pi/chi/iota on permuted lanes, then composition; constants = LFSR |
| C05-C10 | sha3.go, shake.go, xor*.go | sponge invariant incl. "buffer beyond rate is zero while absorbing"; refinement to (message, squeezed count); multi-object heap for Clone |
| C11-C14 | leftEncode, bytepad, newCShake | arithmetic on base-256 digits; prefix-freeness; witness for aligned case |
| C15-C17 | aes generic.go, cipher.go, const.go | tables by exhaustive evaluation, rounds by rewriting; inverse by layer inverses |
| C18 | cipher_asm.go, asm_amd64.s | the routines run on the AES-NI machine with symbolic contents, one lemma per expansion step; schedule = KeyExpansion |
| C19-C23 | ctr_drbg.go | refinement to SP 800-90A state machine |
| C24-C30 | fp511*.go, consts.go | limb arithmetic to Z; Montgomery; windowed exponentiation; primality certificates |
| C31-C35 | csidh.go API | streams, fuel for rejection loops |
| C36-C38, C61-C63, C67 | curve.go, csidh.go | field identities; ladder invariant; bookkeeping invariant |
| C39-C41 | arith_generic.go, fp2.go, params.go of the three primes | one generic model instantiated three times |
| C42-C44, C48, C49 | sidh.go, common | list/byte lemmas |
| C45-C47, C64, C65 | core.go, curve.go | strategy check by evaluation + general soundness; field identities; certificates for the orders of the basis points |
| C50-C53, C66 | sike.go | equational, the exchange property comes from the SIDH theorems |
| C54-C58 | kem/mkem | as above |
| C59 | cpuid_amd64.go | bit tests |
| C60 | fp511_amd64.s | interpreter; a checker that follows the code symbolically and is proved sound; each stage an integer identity |
| C68 | ctr_drbg.go over both ciphers | simulation over any history |
| C69-C72 | arith_amd64.s of the three primes | the same interpreter and checker with bounds per input word; Karatsuba certificates for the products; BP followed through the frame code |
| C73, C74 | fp2.go, curve.go, core.go over arith_amd64.s and arith_arm64.s | each call is the portable call on a memory of variables; parametricity of curve.go and core.go in the field, then C64 |
| C75 | keccakf_amd64.s | register-level run of a round on arbitrary lanes equals the round on complemented lanes; 24 of them |
| C76-C78 | arith_arm64.s of p503 and p751 | symbolic runs over polynomials in the input words with carry atoms; for mul a list of intermediate words and the sums of products they are, each checked from the previous ones; the lost carry of mulP503 characterised by its two comparisons |
| C79 | `dh/csidh` in the amd64 build | every field call of the curve code equals the portable one and keeps elements below p (C60, C24); then by induction over programs, passes and rounds |
| C80 | routines of `fp511_amd64.s` and `arith_amd64.s` | static scan of each path the constant flags select; `step` never changes the globals |
| C81 | alternative API of `sidh.go` | cases of the read; C42 to C48 for the consequences |
| C82 | `sha3.go`, `shake.go` over `keccakf_amd64.s` | invariant: 25 words, byte buffer; each call equals the portable one by C75, then C08 |
| C83 | `ctr_drbg.go`, `cipher_asm.go`, `cpuid_amd64.go` on CPUs without AES-NI | symbolic run up to the first AES instruction; C59 for the flag, C68 for the rest |
| C84 | `sidh.go`, `sike.go` over the amd64 and arm64 field code | call by call from C73 and C74; invariant: coordinates below 2p |
| C85 | `sike.go` over the field code and the amd64 hash | C84, C82 and the fact that all hashed strings are bytes |
| C86 | `MultiKEM` over the field code and the amd64 hash | as C85; induction over the recipients |
| C87 | `csidh.go` of mkem over the amd64 field code and hash | C79, C82; invariant on the hash object, induction over recipients and calls |
| C88 | the key API of `SIKE_Mach.v` | C65 and C84 |
| C89 | `reads64` (a small definition in `P_CPKE_Drbg.v`), `draw` and `onDrbg` in `CPKE_Drbg.v` | every loop that draws, as one search loop; C23 |

## Print Assumptions

Each theorem is followed by `Print Assumptions` in its file. There are three outcomes:

* **closed**: "Closed under the global context".
* **int**: only the primitive type `PrimInt63.int` of the standard library.
* **int63**: the primitive 63-bit integers of the standard library and their specification,
  `PrimInt63.{int, add, sub, mul, land, lor, lsl, lsr, eqb, ltb, leb}` and
  `Uint63.{of_to_Z, add_spec, sub_spec, mul_spec, land_spec, lor_spec, lsl_spec, lsr_spec, eqb_correct, eqb_refl, ltb_spec, leb_spec}`.
  They enter through the primality certificates and the order-of-points certificates (`Prime63.v`, `SIDH_Basis63.v`).

`coqchk -o` also lists further `Uint63`, `PrimInt63` and `ssrunder` constants: they belong to library files that are loaded, not to theorems.

| property | theorem | file | assumptions |
|---|---|---|---|
| C01 | `C01_sm3_digest_correct` | P_SM3.v | closed |
| C02 | `C02_sm3_history` | P_SM3.v | closed |
| C02 | `C02_sm3_reset_fresh` | P_SM3.v | closed |
| C03 | `C03_sm3_write_count_only_empty` | P_SM3.v | closed |
| C03 | `C03_sm3_sum_append_only_empty` | P_SM3.v | closed |
| C03 | `C03_sm3_write_contract_refuted` | P_SM3.v | closed |
| C03 | `C03_sm3_sum_contract_refuted` | P_SM3.v | closed |
| C04 | `C04_keccak_permutation` | P_SHA3.v | closed |
| C05 | `C05_sha3_digests_correct` | P_SHA3.v | closed |
| C06 | `C06_shake_stream` | P_SHA3.v | closed |
| C06 | `C06_shakesum` | P_SHA3.v | closed |
| C07 | `C07_write_after_read` | P_SHA3.v | closed |
| C07 | `C07_reset_fresh` | P_SHA3.v | closed |
| C07 | `C08_history_refines_ideal` | P_SHA3.v | closed |
| C08 | `C08_history_refines_ideal` | P_SHA3.v | closed |
| C09 | `C09_sum_appends_and_advances` | P_SHA3.v | closed |
| C09 | `C09_sum_keeps_state_refuted` | P_SHA3.v | closed |
| C10 | `C10_xor_builds_agree` | P_SHA3.v | closed |
| C10 | `C10_all_lengths_refuted` | P_SHA3.v | closed |
| C11 | `C11_left_encode` | P_SHA3.v | closed |
| C11 | `C11_left_encode_minimal` | P_SHA3.v | closed |
| C11 | `C11_left_encode_prefix_free` | P_SHA3.v | closed |
| C12 | `C12_bytepad` | P_SHA3.v | closed |
| C12 | `C12_bytepad_exact_iff` | P_SHA3.v | closed |
| C13 | `C13_cshake128` | P_SHA3.v | closed |
| C13 | `C13_cshake256` | P_SHA3.v | closed |
| C13 | `C13_cshake_all_inputs_refuted` | P_SHA3.v | closed |
| C14 | `C14_customisation_unambiguous` | P_SHA3.v | closed |
| C15 | `C15_aes_encrypt_is_fips197` | P_AES.v | closed |
| C15 | `C15_aes_tables` | P_AES.v | closed |
| C15 | `C15_sbox_inverse` | P_AES.v | closed |
| C16 | `C16_aes_decrypt_is_invcipher` | P_AES.v | closed |
| C16 | `C16_aes_inverse` | P_AES.v | closed |
| C16 | `C16_aes_roundtrip` | P_AES.v | closed |
| C17 | `C17_setkey_rejects_exactly` | P_AES.v | closed |
| C17 | `C17_setkey_no_residue` | P_AES.v | closed |
| C17 | `C17_block_bounds` | P_AES.v | closed |
| C18 | `C18_agrees_with_portable_32` | P_AESNI.v | closed |
| C18 | `C18_fips197_32` | P_AESNI.v | closed |
| C18 | `C18_always_14_rounds` | P_AESNI.v | closed |
| C18 | `C18_same_panics` | P_AESNI.v | closed |
| C18 | `C18_short_keys` | P_AESNI.v | closed |
| C18 | `C18_short_keys_not_fips197_refuted` | P_AESNI.v | closed |
| C18 | `C18_short_key_remembers` | P_AESNI.v | closed |
| C18 | `C18_bad_key_length` | P_AESNI.v | closed |
| C18 | `C18_setkey_total` | P_AESNI.v | closed |
| C19 | `C19_ctr_drbg_sp800_90a` | P_DRBG.v | closed |
| C20 | `C20_history_exact` | P_DRBG.v | closed |
| C20 | `C20_tail_repeats` | P_DRBG.v | closed |
| C20 | `C20_short_read_stale_key` | P_DRBG.v | closed |
| C20 | `C20_unaligned_sp800_90a_refuted` | P_DRBG.v | closed |
| C21 | `C21_inc` | P_DRBG.v | closed |
| C21 | `C21_no_repeat` | P_DRBG.v | closed |
| C22 | `C22_first_init_accepts_anything` | P_DRBG.v | closed |
| C22 | `C22_reinit` | P_DRBG.v | closed |
| C22 | `C22_reinit_is_fresh_refuted` | P_DRBG.v | closed |
| C23 | `C23_read_total` | P_DRBG.v | closed |
| C23 | `C23_inputs_padded` | P_DRBG.v | closed |
| C24 | `C24_field_ops` | P_CSIDH_Field.v | closed |
| C24 | `C24_mul_unreduced` | P_CSIDH_Field.v | closed |
| C24 | `C24_inplace` | P_CSIDH_Field.v | closed |
| C25 | `C25_stale_carry` | P_CSIDH_Field.v | closed |
| C26 | `C26_mul512` | P_CSIDH_Field.v | closed |
| C26 | `C26_mul576` | P_CSIDH_Field.v | closed |
| C26 | `C26_compare` | P_CSIDH_Field.v | closed |
| C26 | `C26_select` | P_CSIDH_Field.v | closed |
| C26 | `C26_cswap` | P_CSIDH_Field.v | closed |
| C26 | `C26_sub512` | P_CSIDH_Field.v | closed |
| C27 | `C27_modexp` | P_CSIDH_Field.v | closed |
| C27 | `C27_modexp64` | P_CSIDH_Field.v | closed |
| C27 | `C27_total` | P_CSIDH_Field.v | closed |
| C28 | `C28_constants` | P_CSIDH_Field.v | closed |
| C29 | `C29_csidh_prime` | P_CSIDH_Field.v | int63 |
| C29 | `C29_sidh_primes` | P_CSIDH_Field.v | int63 |
| C30 | `C30_inverse` | P_CSIDH_Field.v | int63 |
| C30 | `C30_quadres` | P_CSIDH_Field.v | int63 |
| C31 | `C31_keygen` | P_CSIDH.v | closed |
| C31 | `C31_reachable` | P_CSIDH.v | closed |
| C32 | `C32_private_codec` | P_CSIDH.v | closed |
| C32 | `C32_no_range_check` | P_CSIDH.v | closed |
| C33 | `C33_import_or` | P_CSIDH.v | closed |
| C33 | `C33_export` | P_CSIDH.v | closed |
| C33 | `C33_roundtrip` | P_CSIDH.v | closed |
| C33 | `C33_roundtrip_key` | P_CSIDH.v | closed |
| C33 | `C33_import_used_refuted` | P_CSIDH.v | closed |
| C34 | `C34_randfp` | P_CSIDH.v | closed |
| C34 | `C34_uniform` | P_CSIDH.v | closed |
| C35 | `C35_reject` | P_CSIDH.v | closed |
| C35 | `C35_derive` | P_CSIDH.v | closed |
| C36 | `C36_field` | P_CSIDH_Curve.v | int63 |
| C36 | `C36_group` | P_CSIDH_Curve.v | int63 |
| C36 | `C36_xdbl` | P_CSIDH_Curve.v | int63 |
| C36 | `C36_xadd` | P_CSIDH_Curve.v | int63 |
| C36 | `C36_xdbladd` | P_CSIDH_Curve.v | int63 |
| C36 | `C36_monteval` | P_CSIDH_Curve.v | int63 |
| C36 | `C36_side` | P_CSIDH_Curve.v | int63 |
| C37 | `C37_xmul` | P_CSIDH_Curve.v | int63 |
| C37 | `C37_infinity` | P_CSIDH_Curve.v | int63 |
| C37 | `C37_zero_scalar` | P_CSIDH_Curve.v | int63 |
| C37 | `C37_origin` | P_CSIDH_Curve.v | int63 |
| C37 | `C37_all_points_refuted` | P_CSIDH_Curve.v | int63 |
| C38 | `C38_isogeny_count` | P_CSIDH.v | closed |
| C38 | `C38_cofactors` | P_CSIDH.v | closed |
| C38 | `C38_total` | P_CSIDH.v | closed |
| C39 | `C39_add_sub` | P_SIDH_Field.v | int63 |
| C39 | `C39_mul` | P_SIDH_Field.v | int63 |
| C39 | `C39_wide_mul` | P_SIDH_Field.v | int63 |
| C39 | `C39_reduction` | P_SIDH_Field.v | int63 |
| C39 | `C39_strong_reduction` | P_SIDH_Field.v | int63 |
| C39 | `C39_wide_add_sub` | P_SIDH_Field.v | int63 |
| C39 | `C39_cswap` | P_SIDH_Field.v | closed |
| C40 | `C40_represents` | P_SIDH_Field.v | int63 |
| C40 | `C40_add_sub_mul_sqr` | P_SIDH_Field.v | int63 |
| C40 | `C40_inv` | P_SIDH_Field.v | int63 |
| C41 | `C41_constants` | P_SIDH_Field.v | int63 |
| C41 | `C41_one_half_six` | P_SIDH_Field.v | closed |
| C41 | `C41_to_montgomery` | P_SIDH_Field.v | int63 |
| C41 | `C41_from_montgomery` | P_SIDH_Field.v | int63 |
| C41 | `C41_roundtrip` | P_SIDH_Field.v | int63 |
| C41 | `C41_roundtrip'` | P_SIDH_Field.v | int63 |
| C41 | `C41_p34` | P_SIDH_Field.v | int63 |
| C42 | `C42_import_refuses` | P_SIDH_Api.v | closed |
| C42 | `C42_import_used` | P_SIDH_Api.v | int63 |
| C42 | `C42_import_fresh` | P_SIDH_Api.v | int63 |
| C42 | `C42_export` | P_SIDH_Api.v | int63 |
| C42 | `C42_export_short` | P_SIDH_Api.v | closed |
| C42 | `C42_roundtrip` | P_SIDH_Api.v | int63 |
| C42 | `C42_import_keeps` | P_SIDH_Api.v | int63 |
| C42 | `C42_import_clears_refuted` | P_SIDH_Api.v | int63 |
| C43 | `C43_new` | P_SIDH_Api.v | closed |
| C43 | `C43_import_refuses` | P_SIDH_Api.v | closed |
| C43 | `C43_import` | P_SIDH_Api.v | closed |
| C43 | `C43_export` | P_SIDH_Api.v | closed |
| C43 | `C43_roundtrip` | P_SIDH_Api.v | closed |
| C43 | `C43_import_sidh` | P_SIDH_Api.v | closed |
| C43 | `C43_import_reinit_refuted` | P_SIDH_Api.v | closed |
| C44 | `C44_error` | P_SIDH_Api.v | closed |
| C44 | `C44_generate` | P_SIDH_Api.v | closed |
| C44 | `C44_generate_p434A` | P_SIDH_Api.v | closed |
| C44 | `C44_p434A_range_refuted` | P_SIDH_Api.v | closed |
| C45 | `C45_traversalA` | P_SIDH_Curve.v | int |
| C45 | `C45_traversalB` | P_SIDH_Curve.v | int |
| C45 | `C45_hypotheses_met` | P_SIDH_Curve.v | int63 |
| C46 | `C46_dbladd` | P_SIDH_Curve.v | int |
| C46 | `C46_pow2k` | P_SIDH_Curve.v | int |
| C46 | `C46_pow3k` | P_SIDH_Curve.v | int |
| C46 | `C46_coeffs` | P_SIDH_Curve.v | int |
| C46 | `C46_coeffs_back` | P_SIDH_Curve.v | int |
| C46 | `C46_recoverA` | P_SIDH_Curve.v | int |
| C46 | `C46_jinvariant` | P_SIDH_Curve.v | int |
| C46 | `C46_batch3inv` | P_SIDH_Curve.v | int |
| C46 | `C46_isogeny3` | P_SIDH_Curve.v | int |
| C46 | `C46_isogeny4` | P_SIDH_Curve.v | int |
| C47 | `C47_ladder` | P_SIDH_Curve.v | int63 |
| C47 | `C45_hypotheses_met` | P_SIDH_Curve.v | int63 |
| C48 | `C48_generate` | P_SIDH_Api.v | closed |
| C48 | `C48_derive` | P_SIDH_Api.v | closed |
| C48 | `C48_short_scalar` | P_SIDH_Api.v | closed |
| C48 | `C48_accepted` | P_SIDH_Api.v | closed |
| C49 | `C49_params` | P_SIDH_Api.v | closed |
| C49 | `C49_params_panics` | P_SIDH_Api.v | closed |
| C49 | `C49_register` | P_SIDH_Api.v | closed |
| C49 | `C49_write_once` | P_SIDH_Api.v | closed |
| C49 | `C49_builtin` | P_SIDH_Api.v | closed |
| C50 | `C50_sike` | P_SIKE.v | int63 |
| C50 | `C50_encapsulate_value` | P_SIKE.v | int63 |
| C50 | `C50_pke` | P_SIKE.v | int63 |
| C50 | `C50_matches` | P_SIKE.v | int63 |
| C51 | `C51_sike` | P_SIKE.v | int63 |
| C51 | `C51_any_public_key` | P_SIKE.v | int63 |
| C52 | `C52_encapsulate` | P_SIKE.v | closed |
| C52 | `C52_decapsulate` | P_SIKE.v | int63 |
| C52 | `C52_oversize` | P_SIKE.v | int63 |
| C52 | `C52_unallocated` | P_SIKE.v | closed |
| C53 | `C53_encapsulate` | P_SIKE.v | int63 |
| C53 | `C53_decapsulate` | P_SIKE.v | int63 |
| C53 | `C53_reset` | P_SIKE.v | closed |
| C54 | `C54_same_object` | P_MKEM.v | int63 |
| C54 | `C54_other_object` | P_MKEM.v | int63 |
| C54 | `C54_fresh_object` | P_MKEM.v | int63 |
| C54 | `C54_after_reset` | P_MKEM.v | int63 |
| C54 | `C54_accepts` | P_MKEM.v | int63 |
| C54 | `C54_paper` | P_MKEM.v | int63 |
| C54 | `C54_panics` | P_MKEM.v | int63 |
| C54 | `C54_unallocated` | P_MKEM.v | closed |
| C55 | `C55_encapsulate` | P_MKEM.v | int63 |
| C55 | `C55_only_own_key` | P_MKEM.v | int63 |
| C55 | `C55_panics` | P_MKEM.v | closed |
| C55 | `C55_allocated` | P_MKEM.v | int63 |
| C56 | `C56_allocated` | P_CPKE.v | closed |
| C56 | `C56_unallocated` | P_CPKE.v | closed |
| C56 | `C56_enc` | P_CPKE.v | int63 |
| C56 | `C56_dec` | P_CPKE.v | int63 |
| C56 | `C56_roundtrip` | P_CPKE.v | int63 |
| C56 | `C56_commute` | P_CPKE.v | int63 |
| C56 | `C56_commute_trivial` | P_CPKE.v | int63 |
| C57 | `C57_enc` | P_CPKE.v | int63 |
| C57 | `C57_bad_keys` | P_CPKE.v | int63 |
| C57 | `C57_dec` | P_CPKE.v | int63 |
| C57 | `C57_multi` | P_CPKE.v | closed |
| C57 | `C57_multi_first` | P_CPKE.v | int63 |
| C58 | `C58_history` | P_CPKE.v | int63 |
| C58 | `C58_allocated` | P_CPKE.v | closed |
| C58 | `C58_clean_after` | P_CPKE.v | int63 |
| C58 | `C58_stale_after` | P_CPKE.v | int63 |
| C58 | `C58_clean` | P_CPKE.v | int63 |
| C58 | `C58_stale` | P_CPKE.v | int63 |
| C58 | `C58_receive` | P_CPKE.v | int63 |
| C58 | `C58_too_many` | P_CPKE.v | int63 |
| C58 | `C58_history_independent_refuted` | P_CPKE.v | int63 |
| C59 | `C59_flags` | P_CPU.v | closed |
| C59 | `C59_adx_bmi2_sound` | P_CPU.v | closed |
| C59 | `C59_HasAES_refuted` | P_CPU.v | closed |
| C59 | `C59_HasAES_ignores_ecx` | P_CPU.v | closed |
| C59 | `C59_mulRdc_any_cpu` | P_CPU.v | closed |
| C60 | `C60_mul512` | P_CSIDH_Asm.v | closed |
| C60 | `C60_mul576` | P_CSIDH_Asm.v | closed |
| C60 | `C60_cswap512` | P_CSIDH_Asm.v | closed |
| C60 | `C60_mulBmiAsm` | P_CSIDH_Asm.v | closed |
| C60 | `C60_mulRdc` | P_CSIDH_Asm.v | closed |
| C61 | `C61_accept` | P_CSIDH_Curve.v | int63 |
| C61 | `C61_reject` | P_CSIDH_Curve.v | int63 |
| C61 | `C61_complete` | P_CSIDH_Curve.v | int63 |
| C62 | `C62_image` | P_CSIDH_Curve.v | int63 |
| C62 | `C62_kernel` | P_CSIDH_Curve.v | int63 |
| C62 | `C62_codomain` | P_CSIDH_Curve.v | int63 |
| C63 | `C63_group_action` | P_CSIDH_Curve.v | int63 |
| C63 | `C63_public_key` | P_CSIDH_Curve.v | int63 |
| C63 | `C63_secret` | P_CSIDH_Curve.v | int63 |
| C64 | `C64_agreement` | P_SIDH_Curve.v | int63 |
| C65 | `C65_exchange` | P_SIDH_Api.v | int63 |
| C66 | `C66_encapsulate_reset` | P_SIKE.v | int63 |
| C66 | `C66_decapsulate_reset` | P_SIKE.v | int63 |
| C67 | `C67_identity` | P_CSIDH_Zero.v | int63 |
| C67 | `C67_public` | P_CSIDH_Zero.v | int63 |
| C67 | `C67_secret` | P_CSIDH_Zero.v | int63 |
| C67 | `C67_succeeds` | P_CSIDH_Zero.v | int63 |
| C68 | `C68_cipher_choice_is_invisible` | P_DRBG_Asm.v | closed |
| C68 | `C68_uninitialised_refuted` | P_DRBG_Asm.v | closed |
| C69 | `C69_add` | P_SIDH_Asm.v | int63 |
| C69 | `C69_sub` | P_SIDH_Asm.v | int63 |
| C69 | `C69_adl` | P_SIDH_Asm.v | int63 |
| C69 | `C69_sul` | P_SIDH_Asm.v | int63 |
| C69 | `C69_mod` | P_SIDH_Asm.v | int63 |
| C69 | `C69_cswap` | P_SIDH_Asm.v | closed |
| C70 | `C70_mul` | P_SIDH_Asm.v | int63 |
| C70 | `C70_mul_field` | P_SIDH_Asm.v | int63 |
| C70 | `C70_mul503_all_words_refuted` | P_SIDH_Asm.v | closed |
| C70 | `C70_mul751_all_words_refuted` | P_SIDH_Asm.v | closed |
| C71 | `C71_rdc` | P_SIDH_Asm.v | int63 |
| C71 | `C71_rdc_keeps_x_refuted` | P_SIDH_Asm.v | closed |
| C72 | `C72_mul_bp` | P_SIDH_Asm.v | int63 |
| C72 | `C72_rdc_bp` | P_SIDH_Asm.v | int63 |
| C72 | `C72_mul434_keeps_bp_refuted` | P_SIDH_Asm.v | int63 |
| C72 | `C72_rdc751_keeps_bp_refuted` | P_SIDH_Asm.v | closed |
| C73 | `C73_add` | P_SIDH_AsmFp2.v | int63 |
| C73 | `C73_sub` | P_SIDH_AsmFp2.v | int63 |
| C73 | `C73_mul` | P_SIDH_AsmFp2.v | int63 |
| C73 | `C73_sqr` | P_SIDH_AsmFp2.v | int63 |
| C73 | `C73_inv` | P_SIDH_AsmFp2.v | int63 |
| C73 | `C73_cswap` | P_SIDH_AsmFp2.v | int63 |
| C73 | `C73_fromMontgomery` | P_SIDH_AsmFp2.v | int63 |
| C73 | `C73_import` | P_SIDH_AsmFp2.v | int63 |
| C73 | `C73_mul503_arm_refuted` | P_SIDH_AsmFp2.v | closed |
| C73 | `C73_sqr503_arm_refuted` | P_SIDH_AsmFp2.v | closed |
| C74 | `C74_publicKeyA` | P_SIDH_AsmFp2.v | int63 |
| C74 | `C74_publicKeyB` | P_SIDH_AsmFp2.v | int63 |
| C74 | `C74_secretA` | P_SIDH_AsmFp2.v | int63 |
| C74 | `C74_secretB` | P_SIDH_AsmFp2.v | int63 |
| C74 | `C74_agreement` | P_SIDH_AsmFp2.v | int63 |
| C75 | `C75_keccak_asm` | P_Keccak_Asm.v | closed |
| C75 | `C75_same_build` | P_Keccak_Asm.v | closed |
| C76 | `C76_add` | P_SIDH_Arm.v | int63 |
| C76 | `C76_sub` | P_SIDH_Arm.v | int63 |
| C76 | `C76_adl` | P_SIDH_Arm.v | int63 |
| C76 | `C76_sul` | P_SIDH_Arm.v | int63 |
| C76 | `C76_mod` | P_SIDH_Arm.v | int63 |
| C76 | `C76_rdc` | P_SIDH_Arm.v | int63 |
| C76 | `C76_cswap` | P_SIDH_Arm.v | closed |
| C76 | `C76_cswap_as_portable` | P_SIDH_Arm.v | closed |
| C76 | `C76_cswap_all_bytes_as_portable_refuted` | P_SIDH_Arm.v | closed |
| C77 | `C77_mul751` | P_SIDH_Arm.v | int63 |
| C77 | `C77_mul751_product` | P_SIDH_Arm.v | int63 |
| C78 | `C78_mul503` | P_SIDH_Arm.v | int63 |
| C78 | `C78_sqr503` | P_SIDH_Arm.v | int63 |
| C78 | `C78_mul503_right` | P_SIDH_Arm.v | int63 |
| C78 | `C78_sqr503_right` | P_SIDH_Arm.v | int63 |
| C78 | `C78_right_when` | P_SIDH_Arm.v | closed |
| C78 | `C78_mul503_field_refuted` | P_SIDH_Arm.v | int63 |
| C78 | `C78_montgomery503_refuted` | P_SIDH_Arm.v | int63 |
| C79 | `C79_product` | P_CSIDH_Amd.v | closed |
| C79 | `C79_powers` | P_CSIDH_Amd.v | int63 |
| C79 | `C79_public_key` | P_CSIDH_Amd.v | int63 |
| C79 | `C79_validate` | P_CSIDH_Amd.v | int63 |
| C79 | `C79_secret` | P_CSIDH_Amd.v | int63 |
| C79 | `C79_same_on_all_cpus` | P_CSIDH_Amd.v | int63 |
| C79 | `C79_meaning` | P_CSIDH_Amd.v | int63 |
| C80 | `C80_sidh` | P_X86_Safe.v | closed |
| C80 | `C80_csidh` | P_X86_Safe.v | closed |
| C80 | `C80_fast` | P_X86_Safe.v | closed |
| C80 | `C80_any_cpu` | P_X86_Safe.v | closed |
| C80 | `C80_tests_needed` | P_X86_Safe.v | closed |
| C81 | `C81_enough` | P_SIDH_Alt.v | closed |
| C81 | `C81_short` | P_SIDH_Alt.v | closed |
| C81 | `C81_dead_source` | P_SIDH_Alt.v | closed |
| C81 | `C81_dead_source_new` | P_SIDH_Alt.v | closed |
| C81 | `C81_keyspace_refuted` | P_SIDH_Alt.v | closed |
| C81 | `C81_public_init` | P_SIDH_Alt.v | closed |
| C81 | `C81_init_keeps` | P_SIDH_Alt.v | int63 |
| C82 | `C82_new` | P_Sha3_Amd.v | closed |
| C82 | `C82_history` | P_Sha3_Amd.v | closed |
| C82 | `C82_same_build` | P_Sha3_Amd.v | closed |
| C82 | `C82_shakesum` | P_Sha3_Amd.v | closed |
| C83 | `C83_with_aesni` | P_DRBG_Cpu.v | closed |
| C83 | `C83_opcodes` | P_DRBG_Cpu.v | closed |
| C83 | `C83_key_schedule_traps` | P_DRBG_Cpu.v | closed |
| C83 | `C83_block_traps` | P_DRBG_Cpu.v | closed |
| C83 | `C83_init_dies` | P_DRBG_Cpu.v | closed |
| C83 | `C83_init_lives` | P_DRBG_Cpu.v | closed |
| C83 | `C83_every_cpu_refuted` | P_DRBG_Cpu.v | closed |
| C83 | `C83_routines` | P_DRBG_Cpu.v | closed |
| C83 | `C83_init_any` | P_DRBG_Cpu.v | closed |
| C84 | `C84_export` | P_SIKE_Mach.v | int63 |
| C84 | `C84_import` | P_SIKE_Mach.v | int63 |
| C84 | `C84_public_key` | P_SIKE_Mach.v | int63 |
| C84 | `C84_secret` | P_SIKE_Mach.v | int63 |
| C84 | `C84_encapsulate` | P_SIKE_Mach.v | int63 |
| C84 | `C84_decapsulate` | P_SIKE_Mach.v | int63 |
| C84 | `C84_sike` | P_SIKE_Mach.v | int63 |
| C85 | `C85_hash` | P_SIKE_Amd.v | closed |
| C85 | `C85_encapsulate` | P_SIKE_Amd.v | int63 |
| C85 | `C85_decapsulate` | P_SIKE_Amd.v | int63 |
| C85 | `C85_sike` | P_SIKE_Amd.v | int63 |
| C86 | `C86_encapsulate` | P_MKEM_Amd.v | int63 |
| C86 | `C86_decapsulate` | P_MKEM_Amd.v | int63 |
| C86 | `C86_value` | P_MKEM_Amd.v | int63 |
| C87 | `C87_hash` | P_CPKE_Amd.v | closed |
| C87 | `C87_enc` | P_CPKE_Amd.v | int63 |
| C87 | `C87_dec` | P_CPKE_Amd.v | int63 |
| C87 | `C87_encrypt` | P_CPKE_Amd.v | int63 |
| C87 | `C87_history` | P_CPKE_Amd.v | int63 |
| C88 | `C88_exchange` | P_SIDH_Mach.v | int63 |
| C89 | `C89_reads` | P_CPKE_Drbg.v | closed |
| C89 | `C89_supply` | P_CPKE_Drbg.v | closed |
| C89 | `C89_run` | P_CPKE_Drbg.v | closed |
| C89 | `C89_enough` | P_CPKE_Drbg.v | closed |
| C89 | `C89_determined` | P_CPKE_Drbg.v | closed |
| C89 | `C89_sequence` | P_CPKE_Drbg.v | closed |
| C89 | `C89_buffer` | P_CPKE_Drbg.v | closed |
| C89 | `C89_stream` | P_CPKE_Drbg.v | closed |
