# Formal model of leancrypto in Rocq (Coq 8.16.1)

Source: `/repo` (smuellerDD/leancrypto, pinned). All Coq files are in `rocq/theories/`.

## Conventions

* Bytes, words and coefficients are `Z`; buffers are `list Z`; lengths and offsets are `nat`
  unless the C code can wrap, in which case the wrap is written out (`mod 2^64` and so on).
* Each model definition carries a comment `[file: lines]` with the C code it transcribes and says
  what was simplified.
* Undefined behaviour (out of bounds access, division by zero, reading an uninitialised buffer) is
  a separate outcome (`None` or a constructor of a result type), never a default value, wherever a
  property speaks about it.
* Context structures are Coq records; a C function that mutates a context is a function from
  record to record (and outputs).
* Error codes are the negative numbers of the C API (`EINVAL`, `EBADMSG`, ...).
* Loops over data are structural recursions, or recursions with fuel computed from the data length;
  lemmas show the fuel suffices.
* Big-state byte order: the code works on a little-endian host view. The big-endian code branches
  are not modelled.

## File layout

* `*Model.v`  transcription of the C code.
* `*Spec.v`   specification written from the standard (FIPS 180-4, 202, 197, 203, 204, RFC ...),
  without using model definitions.
* `*Proof.v`  lemmas.
* `Prop*.v`   only the property theorems, each closed by `exact`, each followed by
  `Print Assumptions`, with `Example`s that show concrete instances of the hypotheses.

## Trusted base

1. The Coq 8.16.1 kernel (with its virtual machine for `vm_compute`), rechecked by `coqchk`.
2. The transcription of C into Gallina. It was done by reading; the C code is never executed. The
   concrete models (Keccak, SHA-2, AES, ChaCha20, ...) are additionally checked against published
   known answers by `vm_compute` examples, and are proved equal to independently written
   specifications.
3. `Print Assumptions` for each theorem: every property theorem is expected to be
   `Closed under the global context`; exceptions are listed in the section "Assumptions" below.
4. Compiler, CPU, memory allocator, assembler/SIMD implementations (AVX2, AVX512, ARM, RISC-V),
   operating system entropy and clock are outside the model. Only the portable C implementations
   are modelled.
5. Timing and other side channels are outside the model.

## Assumptions

Every property theorem committed so far prints `Closed under the global context`. (The gate's
`coqchk` context summary also names the axioms of `Coq.ssr.ssrunder`, which belong to a library file
that is loaded; no theorem depends on them.)

## What is modelled, per module

| C code | model | not modelled |
|--------|-------|--------------|
| `hash/src/sha3_c.c`, `keccak_1600.c`, `sponge_common.h`, `hash.c` | `KeccakModel.v` (permutation, lane level, unrolled round), `Sha3Model.v` (context, absorb, squeeze, init, digest size) | SIMD/assembler back ends, big-endian lane loads (absorb and squeeze work on the 200-byte view) |
| `hash/src/sha256_c.c`, `sha512_c.c` | `Sha2Model.v` | accelerated back ends |
| `hash/src/ascon_hash.c`, `ascon_c.c`, ... | `AsconModel.v` | CXOF customisation strings |
| `hash/src/cshake.c`, `hmac/src/kmac.c`, `left_encode.h` | `KmacModel.v` | - |
| `hmac/src/hmac.c`, `kdf/src/*.c`, `otp/src/*.c` | `MacModel.v` over `HashIface.v` | system clock of TOTP (a parameter) |
| `sym/src/aes_sbox.c`, `aes_block.c` and the table-free C implementation in the same directory | `AesModel.v` | AES-NI, ARM CE, RISC-V back ends |
| `internal/src/memcmp_secure_c.c`, `binhexbin.c`, `signature_domain_separation.c` | `UtilModel.v` | AVX2 compare, `bin2print` |
| `sym/src/mode_cbc.c`, `mode_ctr.c`, `mode_kw.c`, `chacha20.c` | `ModesModel.v` | overlapping but unequal in/out buffers |
| `drng/src/hash_drbg.c`, `hmac_drbg.c` | `DrbgModel.v` | scratchpad (cleared by every function), self tests |
| `drng/src/xdrbg.c`, `cshake_drng.c`, `kmac_drng.c` | `XofDrngModel.v` (the caller's old buffer is an argument) | self tests |
| `drng/src/chacha20_drng.c` | `CcDrngModel.v` | aligned/unaligned store variants (same bytes) |
| `drng/src/seeded_rng.c` | `SeededModel.v` over any inner DRNG, clock/pid/entropy as environment | kernel and EFI branches, concurrent callers, destructor |
| `aead/src/ascon.c`, `ascon_lightweight.c`, `ascon_keccak.c`, `aead_api.c` | `AeadAsconModel.v` | self tests, hashes without sponge callbacks |
| `aead/src/cshake_crypt.c`, `kmac_crypt.c`, `hash_crypt.c`, `symhmac.c`, `symkmac.c` | `AeadEtmModel.v` | ECB and KW as cipher of the Sym AEADs, failing memory allocation, state of a Sym context whose setkey failed |
| `ml-kem/src/kyber_*.c`, `kyber_*.h` (C implementation), `kyber_kex.c`, `kyber_ies.c`, `kyber_x25519_{kem,kex,ies}.c`, `kyber_x25519_kdf.h` | `KyberModel.v`, `KyberKexModel.v` (random bytes are arguments) | AVX2/ARM/RISC-V back ends, pairwise consistency self test, streaming IES, X25519 itself (a parameter), `dec_init` instead of `enc_init` in `ies_enc_init` |
| `ml-dsa/src/dilithium_*.c`, `dilithium_*.h` (C implementation: reduction, NTT, rounding, poly, polyvec, pack, signature_impl) | `DilithiumModel.v` (RNG output is an argument; the `-fwrapv` wrap of signed arithmetic is explicit; rejection loops take fuel) | vector and assembler variants, `dilithium_ed25519_signature.c` |
| `ml-dsa/src/dilithium_api.c` (single algorithm part), `dilithium_signature_helper.c`, `dilithium_pct.c` | `DilithiumApiModel.v` | Ed25519 hybrids |
| `slh-dsa/src/*.c`, `*.h` (C implementation, simple thash) | `SphincsModel.v`, `SphincsApiModel.v` (random bytes and return value of the RNG are arguments) | AVX2/ARM variants, robust thash, self tests, a final call on a hash context that was never initialised |
| `asn1/src/asymmetric_type.c`, `x509_policies.c`, `public_key.c` (dispatch), `x509_public_key.c` (self-signed check), `x509_cert_parser.c` (extension handlers, names, times), `x509_cert_generator.c` (times) | `X509Model.v` (the algorithm back ends are a parameter; a parsed certificate is a record) | CRL handling, key loading, the other getters and setters |
| `asn1/src/pkcs7_verify.c`, `pkcs7_trust.c` | `Pkcs7Model.v` (certificates are numbered objects, the flags seen, signer, blacklisted are state; compare-and-swap is sequential; the loop carries fuel, C83 shows it suffices) | concurrency, supplied data handling beyond lc_pkcs7_verify |
| `asn1/src/asn1_decoder.c` (all), `asn1_common.c` (op lengths), the 14 bytecode tables `asn1/src/*.asn1.c` | `Asn1Model.v` (one function per group of switch cases; out-of-bounds accesses are the outcome Bad; actions are an arbitrary function), `Asn1Tables.v` (tables as numbers, generated by script from the C text), `Asn1DerSpec.v` (DER) | the printing of debug messages, error texts |
| `asn1/src/oid_registry.c`, `oid_registry_data.c`, enum OID of `asn1/api/lc_asn1.h` | `OidTables.v` (generated by script from the C text), `OidModel.v` (reads outside a table or the input are `None`); spec in `OidSpec.v` (X.690 8.19) | debug printing; the locale of snprintf |
| `asn1/src/x509_algorithm_mapper.c`, `lc_x509_cert_oid_to_eku` of `x509_cert_parser_get_data.c` | `AlgoModel.v` (table generated by script) | builds without some of the digests; printed help texts |
| `asn1/src/asn1_encoder_helper.c` (length, integer, OID), `asn1_encoder_impl.h` (all), `asn1_encoder.c`, `asn1_encoder_small.c` | `Asn1EncModel.v` (one function per group of switch cases; level buffers are lists; actions are an arbitrary function), `Asn1EncSpec.v` (DER trees) | the helpers the library never calls (octet string, sequence, boolean, tag, binary OID), allocation of the workspace |
| `asn1/src/x509_cert_generator.c` (names, extensions, bit strings), the private-key callbacks of `public_key_dilithium.c`, `public_key_sphincs.c`, `public_key_dilithium_ed25519.c` | `X509GenModel.v` | authority key identifier, DNS and IP alternative names, validity, signature and public-key callbacks |
| `curve25519/src/x25519.c` (`lc_x25519_ss`), `x25519_scalarmult_c.c`, `ed25519_ref10_fe_51.h` (add, sub, mul, sq, mul32, cswap), `fe_51/fe.h`, `fe25519_invert` | `Curve25519Model.v` (specification `X25519Spec.v`) | key pair generation (base point tables), the 32-bit build `fe_25_5`, the AVX and Arm versions, the self test, timecop marks; that the stack copies are wiped |
| `curve25519/src/ed25519_ref10.c`: `sc25519_reduce`, `sc25519_muladd`, `sc25519_mul`, `sc25519_is_canonical`, `ge25519_is_canonical` | `ScModel.v` (instruction lists transcribed line by line; signed 64-bit overflow gives no result) | `sc25519_invert`, `sc25519_sqmul` |
| `curve25519/src/ed25519.c` (keypair, sign, verify, `dom2`) | `Ed25519Model.v` (specification `Ed25519Spec.v`) | point arithmetic, SHA-512 and the composite domain separation are arguments; self tests, wiping of locals |
| `curve25519/src/ed25519_ref10.c`: `ge25519_has_small_order` | `GeSmallModel.v` (field elements as residues) | the other point functions |
| `curve25519/src/ed25519_ref10.c`: `ge25519_frombytes`, `ge25519_frombytes_negate_vartime`, `fe25519_pow22523` | `GeDecodeModel.v` (field elements as residues) | limb arithmetic (see `Curve25519Model.v`), Z and T of the result |
| `curve25519/src/ed25519_ref10.c`: `ge25519_add_cached`, `ge25519_sub_cached`, `ge25519_p2_dbl`, `ge25519_p3_dbl`, `ge25519_p1p1_to_p3`, `ge25519_p3_to_cached`, `ge25519_p3_neg`, `ge25519_p3_add`, `ge25519_p3_sub` | `GeAddModel.v` (field elements as residues) | limb arithmetic, scalar multiplication, precomputed tables |
| `curve25519/src/ed25519_ref10.c`: `ge25519_add_precomp`, `ge25519_sub_precomp`, `ge25519_p1p1_to_p2`, `ge25519_p3_to_p2`, `ge25519_p3_dbladd`, `ge25519_clear_cofactor` | `GeAdd2Model.v` (field elements as residues) | as above |
| `curve25519/src/ed25519_ref10.c`: `_ge25519_scalarmult`, `ge25519_cmov8_cached`, `ge25519_cmov_cached`, `ge25519_cached_0`, `equal`, `negative` | `GeScalarModel.v` (field elements as residues) | release and wiping of the work space; `ge25519_double_scalarmult_vartime` |
| `curve25519/src/ed25519_ref10.c`: `ge25519_scalarmult_base`, `ge25519_cmov8_base`, `ge25519_cmov8`, `ge25519_cmov`, `ge25519_precomp_0`; `curve25519/src/fe_51/base.h` | `GeBaseModel.v` (field elements as residues), `GeBaseTable.v` (all limbs) | the table of the build with 25.5-bit limbs |
| `internal/src/memory_support_linux.c`; the `*_alloc` functions; `asn1_ber_encoder`, start of `lc_pkcs7_set_signer` | `AllocModel.v` (blocks and headers only; system calls as arguments) | block contents, file descriptors, other callers of CKINT |

## Property by property

| id | what is modelled | how proved |
|----|------------------|------------|
| C01 | SHA3/SHAKE contexts, `init`, `update*`, `final` (`Sha3Model.v`), FIPS 202 sponge on bit strings (`Fips202.v`) | invariant "state = sponge of the full blocks so far XOR partial block", induction over the update list |
| C02 | SHAKE squeeze in pieces | induction on the position in the output stream |
| C03 | unrolled `keccakp_1600` against the bit-level FIPS 202 permutation (`KeccakSpec.v`) | one round lane by lane, then iteration |
| C04, C05 | `sha256_*`, `sha512_*` with compression function | buffering invariant; compression equals FIPS 180-4 (`Sha2Spec.v`) |
| C06, C07 | `ascon_absorb_common`, `ascon_squeeze_common`, permutation | C06 refuted by witness and a general collision theorem, positive part for safe splits; C07 against SP 800-232 (`AsconSpec.v`) |
| C08 | Keccak context after squeeze | refuted; the exact XOR law is proved for all inputs |
| C09..C13 | left/right encode, bytepad, cSHAKE, KMAC contexts | arithmetic for encodings; rest on top of C01; C11 refuted |
| C14 | HMAC over the hash interface, instantiated by 7 hashes | simulation; Ascon instance refuted |
| C15, C16 | HKDF, HKDF RNG | induction on blocks; 255th block refuted |
| C17, C18, C61 | KDF CTR/FB/DPI, PBKDF2, KDF-CTR RNG | induction; DPI with empty label and the RNG refuted |
| C19 | HOTP/TOTP with 32 bit wrap | arithmetic; refuted from 10 digits |
| C37, C38 | AES table code, key schedule; FIPS 197 with GF(2^8) inversion (`AesSpec.v`) | tables by exhaustive computation on 256 entries, MixColumns by linearity, induction over rounds and key words |
| C39 | the table-free code on 32-bit words | word = 4 bytes; each step equals the table step |
| C40 | `aes_setkey`, `aes_set_type` | refuted; exact behaviour for every length |
| C41 | `mode_cbc_*` over the AES model, any number of calls | induction over blocks and calls |
| C42, C43 | `mode_ctr_crypt`, `ctr128_inc`, `cc20_crypt` | key stream algebra; C43 refuted for cuts inside a block |
| C44 | `mode_kw_*`, `lc_aes_kw_*` | each wrap step is inverted by the unwrap step; refuted for short input |
| C45 | ChaCha20 block, setkey, setiv, crypt | quarter round on state array = RFC quarter round; counter reset refuted |
| C20 | `lc_memcmp_secure` with both addresses as parameters: aligned and unaligned word loops | loop invariant "or of xors = 0 iff prefixes agree" |
| C21, C63 | `hex2bin`, `bin2hex`, `_bin2hex_html` with every store bounds checked | induction; refuted for odd digit counts, truncated characters, empty buffer |
| C22, C62 | bytes given to the hash by `signature_domain_separation`, `composite_...` | injectivity by cases; composite refuted for unsupported pre-hashes |
| C23, C24 | Hash/HMAC DRBG with SHA-512, any request sequence; SP 800-90A as state machine (`DrbgSpec.v`) | simulation; `drbg_add_buf` = addition mod 2^888 |
| C25 | all DRNG models in their zero state | refuted by computation; positive parts by unfolding |
| C26, C27 | XDRBG over SHAKE256/Ascon-XOF, cSHAKE and KMAC DRNG; definition in `XofDrngSpec.v` | generic simulation lemma over "one chunk"; ENCODE injective by its last byte |
| C28 | ChaCha20 DRNG state words; key stream definition in `CcDrngSpec.v` | induction over blocks, nonce increment = addition mod 2^96 |
| C29 | call sequences with environment; trace monitor `all_allowed` in `SeededProof.v` | invariant between monitor and state |
| C30, C31, C32 | Ascon family AEAD (`AeadAsconModel.v`), SP 800-232 Ascon-AEAD128 (`AeadAsconSpec.v`) | update calls reduced to a byte machine that is independent of the cut; C31, C32 refuted, exact positive parts |
| C33..C36 | the five encrypt-then-MAC AEADs over the models of cSHAKE, KMAC, Hash DRBG, HMAC, AES modes, ChaCha20 (`AeadEtmModel.v`) | generic encrypt-then-MAC lemma and key stream buffer lemma, instantiated five times; refutations by witness or for all inputs |
| C46 | `montgomery_reduce`, `barrett_reduce`, `csubq`, `fqmul` on Z with explicit 16/32 bit conversions | arithmetic; every intermediate is shown to fit |
| C47 | `ntt`, `invntt`, `basemul`, poly and polyvec wrappers | `PolyRing.v`: the loop NTT is evaluation (generic over the split depth); `NttSim.v` carries the coefficient bounds through the layers |
| C48, C49 | `poly_compress`, `poly_decompress`, `polyvec_*`, `tobytes`, `frombytes`, `frommsg`, `tomsg` | rounding lemma per d; bit level equality with ByteEncode/ByteDecode; modulus check refuted |
| C50, C51, C64 | `indcpa_*`, `lc_kyber_keypair_from_seed`, `enc`, `dec` | refinement relation (model polynomial = spec polynomial mod q, with a bound); fuel only for rejection sampling; noise algebra in Z_q[X]/(X^256+1) |
| C52, C53, C65, C66 | `kyber_kex.c`, `kyber_x25519_*.c`, `kyber_ies.c` (one-shot), `kyber_kdf.h` | from C51; X25519 is a parameter with commutativity as hypothesis; C53 and C65 refuted |
| C54, C56 | `dilithium_reduce.h`, `dilithium_rounding.c` on Z with explicit 32 bit conversions | arithmetic with quotient and remainder; the documented ranges of C54 are refuted at their ends |
| C55 | `dilithium_ntt.c`, pointwise product | same loop theory as C47 (`PolyRing.v`, `NttSim.v`); inverse by orthogonality of the powers of zeta (`DilithiumNtt.v`) |
| C57 | `poly*_pack`, `poly*_unpack`, `pack_sig`, `unpack_sig_h` | each group of bytes bit by bit equal to ByteEncode/ByteDecode (`DilithiumCodec.v`); hints by strictly ascending position lists (`DilithiumHint.v`) |
| C58 | `poly_uniform`, `poly_uniform_eta`, `poly_uniform_gamma1`, `poly_challenge` over an arbitrary byte stream and over SHAKE | **refuted as stated** for the matrix and for eta = 4 (`C58_uniform_refuted`, `C58_eta4_refuted`: a refill reads 168 or 272 bytes and uses 32 or 136); exact characterisation (`C58_*_exact`), equality with FIPS 204 when at most one refill is needed (`*_partial`), always for eta = 2, challenge and mask. That enough candidates are accepted for a concrete seed is evaluated at compile time only (a definition of type `True` whose tactic fails otherwise) |
| C59 | `keypair_from_seed`, `sign`/`sign_ctx`/`sign_init,update,final`, `verify…` with the matrix buffer, domain separation and all samplers; the self-test vectors of the library are evaluated at compile time (DilithiumKat) | **proved** for every seed, message below 2^63 bytes, user context, RNG output and cut (`C59_*`): if signing returns 0, verification never returns anything but 0 and does return. Chain: NTT products are ring products (DilithiumRing), the key equation A s1 + s2 = t1 2^13 + t0, rejection bounds give the hint equation (DilithiumSign `round_ok`), the packed signature unpacks to the same values |
| C60 | contexts with a matrix buffer, `lc_dilithium_ctx_drop_ahat`, the extent of the accesses to the buffer (DilithiumApiModel); programs of sign, verify and drop calls on one context | **refuted as stated** (`C60_refuted`: after one use with ML-DSA-44 an ML-DSA-87 key makes the code read past the buffer; `C60_small_buffer_refuted`; `C60_stale_rho_ignored`: a held matrix is used for any key). **proved** for every program that drops the cache between keys, as the header demands (`C60_partial`, `C60_in_bounds`): same codes and signatures as without a cache |
| C67 | the allocation functions over arbitrary memory contents | **refuted**: `lc_dilithium_ctx_alloc_ahat` never provides a buffer (`C67_refuted`, `C67_never_caches`); with an allocator that does not clear memory the settings and the expanded flag are stale (`C67_uncleared_refuted`); `C67_partial` for cleared memory |
| C68 | `sk/pk/sig_load`, `…_ptr`, the type check of `lc_dilithium_verify` | **proved** (`C68_load`, `C68_mismatch`) |
| C69 | `lc_dilithium_pct` over the generic API | **proved** from C59 (`C69_pct`) |
| C70, C71, C72, C77 | `SphincsModel.v` (`sphincs_sign.c`, `sphincs_fors.c`, `sphincs_merkle.c`, `sphincs_wots.c`, `sphincs_wotsx1.c`, `sphincs_utils.c`, `sphincs_utilsx1.c`, `sphincs_thash_shake_simple.c`, `sphincs_hash_shake.c`, `sphincs_address.h`) with byte-array addresses; `SphincsApiModel.v` (`sphincs_api.c`, `sphincs_pct.c`); FIPS 205 in `SlhSpec.v` with recursive trees | address bytes = ADRS records (`SphincsAddr.v`); WOTS chains and digits (`SphincsWots.v`); treehash stack invariant = the recursive node (`SphincsTree.v`); layers, signing, verification (`SphincsProof.v`); FIPS 205 signatures verify (`SlhCorrect.v`). The 128s vector is evaluated at compile time (`SphincsKat.v`) |
| C73, C76 | `lc_sphincs_sign_init/update/final`, `verify_…` over the hash models | **refuted** for SHAKE256 below category 5 and for reuse; the rest from C01, C04, C05 |
| C74, C75 | load, ptr, keytype and from-seed functions | **refuted** by witness; exact positive parts |
| C78, C79 | `asymmetric_type.c`, `x509_check_for_self_signed` | case analysis over the byte comparison; **refuted** by witnesses with a toy signature scheme |
| C80, C82 | `lc_pkcs7_verify` down to the chain loop; trust as an inductive relation independent of the loop | induction over the loop (`PropPkcs7.v`; signer conditions and issuer identifiers in `PropPkcs7b.v`); **refuted** by concrete certificate sets (self-signed root as signer; non-CA issuer; path length; expired anchor) |
| C81 | `lc_pkcs7_trust_store_add` on a linked list | list induction; **refuted** by a forged intermediate and by a repeated member |
| C83 | same loop | visited certificates form a duplicate-free list inside the chain, linked by the signer pointers |
| C84 | `pkcs7_digest` | case analysis; **refuted** by two calls |
| C85 | `x509_policies.c` | case analysis against declarative conditions; **refuted** for a bound of 0 |
| C86, C87 | `x509_decode_time`, `mktime64`, the time encoders; calendar defined by leap rule and month lengths | `F(y) - F(y-1)` is the length of year y; months by computation; a gmtime satisfying the specification is constructed, so the hypotheses are not empty |
| C88, C89 | extension handlers, name fabrication (extended key usage from the object identifiers on in `PropAlgo.v`) | bit level lemmas, induction over the list of extensions; **refuted** by witnesses |
| C90 | A static check on bytecode (`check`, with a computed certificate: reachable positions, positions where the recorded length may be meaningless, positions that must consume) is proved sound for every input by an invariant over single trips of the interpreter; the 14 tables are checked by computation. `C90_calls` states the same about a log of the calls. `C90_any_table_refuted`: an operation with action on a constructed tag would read out of bounds, so the check is not vacuous. | `C90_memory_safe`, `C90_calls`, `C90_any_table_refuted` |
| C91 | A measure (remaining input, jump stack depth, position, and whether the current position must consume) decreases in every trip. | `C91_terminates`, `C91_linear` |
| C92 | Symbolic execution of the interpreter on `tlv` encodings, induction over the elements. | `C92_mldsa_privkey`, `C92_composite`, `C92_eku`, `C92_single`, `C92_basic_constraints` |
| C93 | Refuted by witnesses; the cause of the primitive-tag case is the mask `~(optag & ASN1_CONS_BIT)`, which does the opposite of the comment above it. For one-element grammars the accepted inputs are shown to carry the right tag. | `C93_der_refuted`, `C93_trailing_refuted`, `C93_single_partial` |
| C94 | Refuted by witnesses: a conditional match is skipped both when the previous alternative matched and at the end of the enclosing element; FLAG_MATCHED is not cleared by a new CHOICE, so the COND_FAIL that makes a CHOICE mandatory passes on an earlier match. | `C94_validity_refuted`, `C94_empty_subject_refuted`, `C94_signerinfos_refuted` |
| C95 | `look_up_OID` etc. over the generated tables; spec: X.690 encoding of the arcs in the comments of the enum | soundness from the comparison loop for all inputs, completeness by computing the search for all 124 encodings; `C95_*` in `PropOid.v` |
| C96 | `sprint_oid` against a decimal printer | induction over subidentifiers and digits; **refuted** for 2.40 and arcs from 2^64; `C96_*` |
| C97 | mapper tables against the identifiers of NIST CSOR and the composite draft, strength against collision resistance, dispatch of `public_key_verify_signature` | case analysis, computation over the tables lifted to all inputs; **refuted** for ML-DSA-87 composites and RSA types; `PropAlgo.v` |
| C98 | encoder primitives against X.690 | range analysis; induction over octets; **refuted** for zero and for object identifiers; `C98_*` in `PropAsn1Enc.v` |
| C99 | the whole encoder machine on the 14 tables, actions arbitrary | certificate of control states checked by computation (`enc_ok`), invariant over DER trees, rank for termination; `C99_*`; **refuted** only for callbacks that continue for ever |
| C100 | key containers: encoder run on the key grammars, decoder of C92 on the result | symbolic runs of the machine; `C100_*` in `PropX509Gen.v` |
| C101 | the Name production of the x509 table with the name callbacks | symbolic run with induction over the components; **refuted** for string types, SET order and alternative names; `C101_*` |
| C102 | the Extensions production of the x509 table with the extension callbacks | computation over all path lengths and usages lifted to theorems; **refuted** for repeated extensions, the present flag, DER and path length 0; `C102_*` |
| C103 | all of `crypto_scalarmult_curve25519_c` with the five-limb arithmetic, with 64- and 128-bit wrapping | limb bounds and congruence modulo p for each field operation, canonical output of reduce, exponent tracking for the inversion, ladder by induction against RFC 7748, the block list decided on all residues; `C103_*` |
| C104 | the scalar arithmetic modulo the group order as a straight-line program on 24 signed 64-bit limbs | interval analysis for the overflow checks (computed once on boxes, proved sound), value modulo the order kept by every block, convolution identity by `ring`, byte-wise comparison loops by induction; `C104_*` |
| C105 | `lc_ed25519_keypair`, `lc_ed25519_sign_internal`, `lc_ed25519_verify_internal` over an abstract group | C104 for the scalars; completeness in the group, with the order of the base point and the clamping (multiple of 8 between 2^254 and 2^255) excluding small order; `C105_*`. The record `curve` is a hypothesis of the theorems, not an axiom |
| C106 | `ge25519_has_small_order` on residues modulo p | REFUTED: witness of order 8 with Z = -1; soundness on decoded points through three doublings of the RFC 8032 formulas; completeness on decoded points from the primality of 2^255-19, proved by a Pocklington certificate (`Pocklington.v`, `PrimeCert.v`, `Prime25519.v`); `C106_*` |
| C107 | allocation and its callers, system calls as arguments | REFUTED six ways (lock failure, sign, CKINT, null, wrap, flag); case analysis over the system call answers for what holds; `C107_*` |
| C108 | `ge25519_frombytes`, `ge25519_frombytes_negate_vartime`, `fe25519_pow22523` on residues modulo p | REFUTED twice (sign of 0, y from p on); exact description of what is accepted by Fermat's theorem (`Pocklington.v`) and the primality of p (`Prime25519.v`); `C108_*` |
| C109 | point addition, subtraction, doubling on residues modulo p | PROVED: completeness of the addition law from -d not being a square (a computed power) and the primality of p; closure by an explicit polynomial identity; `C109_*` |
| C110 | additions with table entries, repeated doubling, clearing the cofactor, on residues modulo p | proved from the addition law of C109 by induction on the doublings; REFUTED for `ge25519_p3_dbladd` with n = 0, which no caller uses; `C110_*` |
| C111 | `_ge25519_scalarmult` with its signed digits, table and constant-time selection, on residues modulo p | proved for a[31] <= 127 from the addition law of C109 by induction on the digits; a multiple is any chain of sums and opposites with that coefficient (associativity of the curve is not proved); REFUTED without the precondition; `C111_*` |
| C112 | `ge25519_scalarmult_base` with the table of fe_51/base.h, on residues modulo p | PROVED: the loop for any correct table (`C112_base_partial`), the 256 entries by a checker proved sound, run on untrusted witnesses (`GeBaseWit.v`); `C112_*` |

No property is considered inexpressible so far; side channel claims were not listed since they cannot
be expressed in this model.
