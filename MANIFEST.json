{
 "claims": [
  {
   "property": "C01",
   "status": "proved",
   "theorems": [
    "C01_sha3_streaming",
    "C01_xof_streaming"
   ],
   "note": "against bit-level FIPS 202 (KeccakSpec.v, SpongeSpec.v, Fips202.v)"
  },
  {
   "property": "C02",
   "status": "proved",
   "theorems": [
    "C02_xof_one_stream"
   ],
   "note": ""
  },
  {
   "property": "C03",
   "status": "proved",
   "theorems": [
    "C03_keccak_permutation"
   ],
   "note": ""
  },
  {
   "property": "C04",
   "status": "proved",
   "theorems": [
    "C04_sha256_streaming"
   ],
   "note": "for all splits; length counter hypothesis 8*len < 2^64 as in FIPS 180-4"
  },
  {
   "property": "C05",
   "status": "proved",
   "theorems": [
    "C05_sha512_streaming",
    "C05_sha384_streaming"
   ],
   "note": "messages below 2^64 bits (the implementation keeps a 64 bit length)"
  },
  {
   "property": "C06",
   "status": "partial",
   "theorems": [
    "C06_refuted",
    "C06_streaming_collisions",
    "C06_ascon_streaming_partial"
   ],
   "note": "REFUTED as stated by C06_refuted; holds for the splits named by safe_split; universal streaming collisions proved"
  },
  {
   "property": "C07",
   "status": "proved",
   "theorems": [
    "C07_ascon_permutation",
    "C07_ascon_hash_oneshot",
    "C07_ascon_xof_oneshot"
   ],
   "note": ""
  },
  {
   "property": "C08",
   "status": "partial",
   "theorems": [
    "C08_refuted",
    "C08_absorb_after_read_is_xor"
   ],
   "note": "REFUTED as stated: data absorbed after a partial read is XORed onto the old stream; the general law is proved"
  },
  {
   "property": "C09",
   "status": "proved",
   "theorems": [
    "C09_encodings",
    "C09_prefix_free",
    "C09_suffix_free",
    "C09_bytepad_unambiguous"
   ],
   "note": ""
  },
  {
   "property": "C10",
   "status": "proved",
   "theorems": [
    "C10_cshake"
   ],
   "note": ""
  },
  {
   "property": "C100",
   "status": "proved",
   "theorems": [
    "C100_mldsa",
    "C100_composite",
    "C100_roundtrip",
    "C100_composite_roundtrip"
   ],
   "note": "non-empty keys; the load functions themselves are C22 and others"
  },
  {
   "property": "C101",
   "status": "partial",
   "theorems": [
    "C101_name",
    "C101_string_type_refuted",
    "C101_set_order_refuted",
    "C101_san_refuted"
   ],
   "note": "REFUTED as stated: every attribute value is tagged OCTET STRING (tag 0 in a subject alternative name), all attributes are in one SET that is not sorted, a directory name holds only one attribute; each component written once, in order, with its type, is proved"
  },
  {
   "property": "C102",
   "status": "partial",
   "theorems": [
    "C102_basic",
    "C102_basic_roundtrip",
    "C102_keyusage",
    "C102_duplicate_refuted",
    "C102_eku_present_refuted",
    "C102_der_refuted",
    "C102_pathlen_zero_refuted"
   ],
   "note": "REFUTED as stated: several purposes make several extKeyUsage extensions, the present flag makes generation fail, key usage and FALSE are not DER, a path length of 0 is lost; basic constraints and key usage round trips are proved"
  },
  {
   "property": "C103",
   "status": "proved",
   "theorems": [
    "C103_x25519",
    "C103_refused",
    "C103_small",
    "C103_api",
    "C103_ignored_bits"
   ],
   "note": "the portable 64-bit build (five 51-bit limbs); that no further u coordinate has small order is not proved"
  },
  {
   "property": "C104",
   "status": "proved",
   "theorems": [
    "C104_reduce",
    "C104_muladd",
    "C104_mul",
    "C104_canonical_scalar",
    "C104_canonical_point",
    "C104_output_canonical"
   ],
   "note": "signed 64-bit overflow is a distinct outcome, shown not to happen"
  },
  {
   "property": "C105",
   "status": "proved",
   "theorems": [
    "C105_keypair",
    "C105_sign",
    "C105_sign_any",
    "C105_verify_exact",
    "C105_complete"
   ],
   "note": "what is assumed of the point functions is the record curve in PropEd25519.v (met by an example); SHA-512 is any function to 64 bytes"
  },
  {
   "property": "C106",
   "status": "partial",
   "theorems": [
    "C106_representation_refuted",
    "C106_decoded",
    "C106_sound",
    "C106_axis",
    "C106_plus",
    "C106_complete"
   ],
   "note": "REFUTED as stated by C106_representation_refuted: the last comparison uses the projective X, so half of the points of order 8 are missed when Z is not 1; the converse of C106_sound (every point of order dividing 8 is found when Z = 1) is C106_complete, by a Pocklington certificate for 2^255-19"
  },
  {
   "property": "C107",
   "status": "partial",
   "theorems": [
    "C107_lock_refuted",
    "C107_sign_refuted",
    "C107_ckint_refuted",
    "C107_null_refuted",
    "C107_wrap_refuted",
    "C107_flag_refuted",
    "C107_plain",
    "C107_ctx",
    "C107_null",
    "C107_secure"
   ],
   "note": "REFUTED as stated: a failing mlock frees a wrong address (C107_lock_refuted), the RNG allocators answer a positive number (C107_sign_refuted), CKINT takes the positive answer of lc_alloc_aligned for success (C107_ckint_refuted), eight AEAD and HMAC allocators store through a null pointer (C107_null_refuted), sizes near SIZE_MAX wrap (C107_wrap_refuted), a secret mapping reaches free() once memfd_secret was found missing (C107_flag_refuted); proved: lc_alloc_aligned and the context allocators on it are clean for sizes that fit, lc_alloc_aligned_secure is safe if locking is possible"
  },
  {
   "property": "C108",
   "status": "partial",
   "theorems": [
    "C108_zero_sign_refuted",
    "C108_canonical_refuted",
    "C108_exact",
    "C108_negate",
    "C108_accepts",
    "C108_refuses",
    "C108_none"
   ],
   "note": "REFUTED as stated: x = 0 with the sign bit set (C108_zero_sign_refuted) and y from p on (C108_canonical_refuted, a point that is not of small order) are accepted; proved: every string of RFC 8032 decodes to its point, and these two are the only excess (C108_exact, C108_negate, C108_refuses, C108_none); the primality of 2^255-19 used here is proved"
  },
  {
   "property": "C109",
   "status": "proved",
   "theorems": [
    "C109_closed",
    "C109_add",
    "C109_sub",
    "C109_sub_cached",
    "C109_dbl",
    "C109_neutral"
   ],
   "note": "field elements as residues modulo p; the non-squareness of -d and the primality of p are proved"
  },
  {
   "property": "C11",
   "status": "partial",
   "theorems": [
    "C11_refuted",
    "C11_cshake_reinit_partial"
   ],
   "note": "REFUTED as stated by C11_refuted: an init with empty N and S turns the context into SHAKE for good; holds while the algorithm pointer is unchanged"
  },
  {
   "property": "C110",
   "status": "partial",
   "theorems": [
    "C110_add_precomp",
    "C110_sub_precomp",
    "C110_doubled",
    "C110_dbladd",
    "C110_dbladd_0_refuted",
    "C110_cofactor"
   ],
   "note": "REFUTED as stated by C110_dbladd_0_refuted only for n = 0 (the result is (0,0,0,0), not a point; no caller passes 0); all else proved, on residues modulo p"
  },
  {
   "property": "C111",
   "status": "partial",
   "theorems": [
    "C111_digits",
    "C111_equal",
    "C111_negative",
    "C111_scalarmult",
    "C111_high_refuted"
   ],
   "note": "proved for a[31] <= 127; REFUTED as stated by C111_high_refuted only in the last clause: the precondition of the comment is needed, the scalars 15*16^63 and 0 give the same result. A multiple is any chain of sums and opposites with that coefficient; associativity is not proved; residues modulo p"
  },
  {
   "property": "C112",
   "status": "proved",
   "theorems": [
    "C112_table",
    "C112_base",
    "C112_base_partial",
    "C112_multiples"
   ],
   "note": "the table of the build with 51-bit limbs; C112_base_partial is the statement for any correct table of any point, C112_base discharges its hypothesis; a multiple is any chain of sums and opposites with that coefficient, associativity is not proved; residues modulo p"
  },
  {
   "property": "C12",
   "status": "proved",
   "theorems": [
    "C12_kmac",
    "C12_kmacxof",
    "C12_short_mac_writes_nothing"
   ],
   "note": ""
  },
  {
   "property": "C13",
   "status": "proved",
   "theorems": [
    "C13_kmac_reinit"
   ],
   "note": ""
  },
  {
   "property": "C14",
   "status": "partial",
   "theorems": [
    "C14_hmac",
    "C14_hmac_reinit",
    "C14_ascon_refuted"
   ],
   "note": "proved for SHA-256/384/512 and SHA3-224..512; 'every hash' is REFUTED for Ascon-Hash256 by C14_ascon_refuted (digest longer than block: out of bounds memset)"
  },
  {
   "property": "C15",
   "status": "partial",
   "theorems": [
    "C15_hkdf_partial",
    "C15_hkdf_too_long",
    "C15_refuted"
   ],
   "note": "REFUTED as stated by C15_refuted: the code refuses more than 254 digests; equality proved up to 254 digests, error proved beyond"
  },
  {
   "property": "C16",
   "status": "proved",
   "theorems": [
    "C16_hkdf_rng",
    "C16_failed_seed_generates"
   ],
   "note": "the limit is 254 digests"
  },
  {
   "property": "C17",
   "status": "partial",
   "theorems": [
    "C17_kdf_ctr",
    "C17_kdf_fb",
    "C17_kdf_dpi_partial",
    "C17_kdf_dpi_refuted"
   ],
   "note": "CTR and FB proved in full; DPI proved for non-empty labels and REFUTED for the empty label"
  },
  {
   "property": "C18",
   "status": "proved",
   "theorems": [
    "C18_pbkdf2"
   ],
   "note": ""
  },
  {
   "property": "C19",
   "status": "partial",
   "theorems": [
    "C19_hotp_partial",
    "C19_totp_partial",
    "C19_refuted",
    "C19_division_by_zero"
   ],
   "note": "proved for up to 9 digits; REFUTED for 10 digits; division by zero from 32 digits or step 0"
  },
  {
   "property": "C20",
   "status": "proved",
   "theorems": [
    "C20_memcmp"
   ],
   "note": "C code path; the AVX2 variant is not modelled"
  },
  {
   "property": "C21",
   "status": "partial",
   "theorems": [
    "C21_roundtrip",
    "C21_bin2hex_bounds",
    "C21_alloc_bounds",
    "C21_hex2bin_bounds",
    "C21_refuted"
   ],
   "note": "round trip proved; the bound of hex2bin is REFUTED by C21_refuted for odd digit counts; exact condition proved"
  },
  {
   "property": "C22",
   "status": "proved",
   "theorems": [
    "C22_injective",
    "C22_long_context_refused",
    "C22_accepted"
   ],
   "note": ""
  },
  {
   "property": "C23",
   "status": "proved",
   "theorems": [
    "C23_hash_drbg"
   ],
   "note": ""
  },
  {
   "property": "C24",
   "status": "proved",
   "theorems": [
    "C24_hmac_drbg"
   ],
   "note": ""
  },
  {
   "property": "C25",
   "status": "partial",
   "theorems": [
    "C25_refuted",
    "C25_unseeded_returns_success",
    "C25_kdf_rngs_partial",
    "C25_seeded_partial"
   ],
   "note": "REFUTED as stated by C25_refuted: Hash DRBG, HMAC DRBG, XDRBG256/128, cSHAKE and KMAC DRNG return 0 and output from an all-zero state; holds for the HKDF, KDF-CTR and seeded RNG"
  },
  {
   "property": "C26",
   "status": "partial",
   "theorems": [
    "C26_xdrbg256",
    "C26_state_replaced",
    "C26_encode_injective",
    "C26_alpha_truncated",
    "C26_xdrbg128_refuted",
    "C26_xdrbg128_partial"
   ],
   "note": "proved for XDRBG256 in full; XDRBG128 REFUTED for seeds that hit the Ascon absorb defect, proved for all others"
  },
  {
   "property": "C27",
   "status": "partial",
   "theorems": [
    "C27_cshake_drng",
    "C27_kmac_refuted",
    "C27_kmac_partial"
   ],
   "note": "cSHAKE DRNG proved in full; KMAC DRNG REFUTED for a last piece of 1..3 bytes (buffer not written, 0 returned), proved otherwise"
  },
  {
   "property": "C28",
   "status": "proved",
   "theorems": [
    "C28_generate",
    "C28_seed",
    "C28_counters_distinct",
    "C28_counter_wraps"
   ],
   "note": "counter room: up to 2^38-128 bytes per request; wrap shown beyond"
  },
  {
   "property": "C29",
   "status": "partial",
   "theorems": [
    "C29_partial",
    "C29_clock_refuted",
    "C29_pid_refuted",
    "C29_failed_seeding"
   ],
   "note": "REFUTED for clock value 0 or a failing clock and for reused process ids; proved for every call sequence with a working clock and no pid reuse. Concurrent callers are not modelled"
  },
  {
   "property": "C30",
   "status": "proved",
   "theorems": [
    "C30_roundtrip",
    "C30_setkey"
   ],
   "note": "Ascon-AEAD128, Ascon-Keccak 256 and 512, any cut on both sides, in place or not"
  },
  {
   "property": "C31",
   "status": "partial",
   "theorems": [
    "C31_refuted",
    "C31_partial"
   ],
   "note": "REFUTED as stated by C31_refuted (empty AAD; message that is not a positive multiple of 16 bytes); proved for non-empty AAD: ciphertext always, tag for whole blocks"
  },
  {
   "property": "C32",
   "status": "partial",
   "theorems": [
    "C32_refuted",
    "C32_partial",
    "C32_contexts"
   ],
   "note": "REFUTED as stated by C32_refuted: the empty message and one zero block have the same tag for every key; C32_partial shows this is the only collision of the authenticated string"
  },
  {
   "property": "C33",
   "status": "partial",
   "theorems": [
    "C33_cshake",
    "C33_kmac_partial",
    "C33_hash_partial",
    "C33_symhmac_partial",
    "C33_symkmac_partial",
    "C33_kmac_short_tag_refuted",
    "C33_symkmac_short_tag_refuted",
    "C33_hash_long_tag_refuted",
    "C33_ctr_split_refuted",
    "C33_hash_rekey_refuted"
   ],
   "note": "cSHAKE in full; the others proved for the documented tag lengths; REFUTED for tags under 4 bytes (KMAC), over 64 bytes (hash), differing cuts (CTR), second setkey (hash)"
  },
  {
   "property": "C34",
   "status": "partial",
   "theorems": [
    "C34_ascon",
    "C34_cshake",
    "C34_kmac_partial",
    "C34_hash_partial",
    "C34_symhmac_partial",
    "C34_symkmac_partial",
    "C34_symhmac_tail_refuted",
    "C34_symkmac_tail_refuted",
    "C34_empty_tag_accepted"
   ],
   "note": "proved for Ascon, cSHAKE and the documented tag lengths of the others; REFUTED for longer tags of Sym-HMAC and Sym-KMAC (the rest is ignored)"
  },
  {
   "property": "C35",
   "status": "partial",
   "theorems": [
    "C35_refuted"
   ],
   "note": "REFUTED as stated by C35_refuted for all five AEADs: AAD and ciphertext are concatenated without length"
  },
  {
   "property": "C36",
   "status": "partial",
   "theorems": [
    "C36_refuted",
    "C36_encrypt_always_0",
    "C36_ascon_taglen_refuted",
    "C36_ascon_setkey_refuted",
    "C36_partial",
    "C36_ascon_partial"
   ],
   "note": "REFUTED as stated; proved for contexts after a successful setkey, documented tag lengths and whole blocks"
  },
  {
   "property": "C37",
   "status": "proved",
   "theorems": [
    "C37_aes_roundtrip"
   ],
   "note": ""
  },
  {
   "property": "C38",
   "status": "proved",
   "theorems": [
    "C38_aes_fips197",
    "C38_sbox"
   ],
   "note": ""
  },
  {
   "property": "C39",
   "status": "proved",
   "theorems": [
    "C39_scr_equals_table"
   ],
   "note": ""
  },
  {
   "property": "C40",
   "status": "partial",
   "theorems": [
    "C40_refuted",
    "C40_fresh_refuted",
    "C40_invalid_length",
    "C40_valid_partial"
   ],
   "note": "REFUTED as stated by C40_refuted: setkey with any other length returns 0 and keeps the previous key; on a fresh context Nr stays 0"
  },
  {
   "property": "C41",
   "status": "proved",
   "theorems": [
    "C41_cbc",
    "C41_cbc_decrypt_spec",
    "C41_tail_untouched"
   ],
   "note": ""
  },
  {
   "property": "C42",
   "status": "proved",
   "theorems": [
    "C42_ctr",
    "C42_increment"
   ],
   "note": ""
  },
  {
   "property": "C43",
   "status": "partial",
   "theorems": [
    "C43_ctr_partial",
    "C43_chacha20_partial",
    "C43_ctr_refuted",
    "C43_chacha20_refuted"
   ],
   "note": "REFUTED as stated by C43_ctr_refuted and C43_chacha20_refuted; proved when all chunks but the last are whole blocks"
  },
  {
   "property": "C44",
   "status": "partial",
   "theorems": [
    "C44_wrap",
    "C44_unwrap",
    "C44_roundtrip",
    "C44_accepted_is_wrapped",
    "C44_refuted",
    "C44_short_accepted",
    "C44_length_underflow",
    "C44_short_wrap"
   ],
   "note": "proved for n >= 2 semiblocks; REFUTED for inputs of 8..23 bytes by C44_refuted"
  },
  {
   "property": "C45",
   "status": "partial",
   "theorems": [
    "C45_chacha20",
    "C45_block",
    "C45_refuted",
    "C45_setiv_keeps_counter"
   ],
   "note": "RFC 8439 equality proved after init, setkey, setiv; 'whatever happened earlier' REFUTED by C45_refuted: the counter is not reset"
  },
  {
   "property": "C46",
   "status": "proved",
   "theorems": [
    "C46_montgomery",
    "C46_montgomery_no_overflow",
    "C46_barrett",
    "C46_barrett_no_overflow",
    "C46_conditional",
    "C46_fqmul"
   ],
   "note": "residue, range and absence of signed 32 bit overflow"
  },
  {
   "property": "C47",
   "status": "proved",
   "theorems": [
    "C47_ring_product",
    "C47_Rmul",
    "C47_inverse",
    "C47_no_overflow"
   ],
   "note": "the exact ranges in which the butterflies cannot overflow 16 bits are part of the statements"
  },
  {
   "property": "C48",
   "status": "proved",
   "theorems": [
    "C48_compress",
    "C48_compress_message",
    "C48_poly",
    "C48_polyvec",
    "C48_decompress",
    "C48_error",
    "C48_code_error"
   ],
   "note": "every coefficient, d in 1, 4, 5, 10, 11"
  },
  {
   "property": "C49",
   "status": "partial",
   "theorems": [
    "C49_tobytes_frombytes",
    "C49_frombytes_tobytes",
    "C49_message",
    "C49_modulus_check_refuted"
   ],
   "note": "round trips proved; REFUTED for the modulus check: it compares a value with itself and accepts every string"
  },
  {
   "property": "C50",
   "status": "proved",
   "theorems": [
    "C50",
    "C50_return_code",
    "C64_decaps_bad_key"
   ],
   "note": "re-encryption stated with FIPS 203 functions"
  },
  {
   "property": "C51",
   "status": "proved",
   "theorems": [
    "C51_if_pke_correct",
    "C51_pke_correct",
    "C51"
   ],
   "note": "error bound |e| <= 831 (the largest integer below q/4; 832 can flip a 1 bit, see C51_sharp)"
  },
  {
   "property": "C52",
   "status": "proved",
   "theorems": [
    "C52_uake",
    "C52_ake",
    "C52_hybrid_uake",
    "C52_hybrid_ake",
    "C52_hybrid_kem",
    "C52_kdf"
   ],
   "note": "under the low noise condition of C51; the hybrid for every commutative X25519"
  },
  {
   "property": "C53",
   "status": "partial",
   "theorems": [
    "C53_refuted",
    "C53_x25519_ignored",
    "C53_hybrid_secret_from_mlkem_alone",
    "C53_partial",
    "C53_kex_kdf"
   ],
   "note": "REFUTED as stated by C53_refuted: the KMAC key length is that of the ML-KEM half, the X25519 secret is ignored; the 3-way and 4-way KDF of the key exchange are proved to use both"
  },
  {
   "property": "C54",
   "status": "partial",
   "theorems": [
    "C54_montgomery_partial",
    "C54_montgomery_refuted",
    "C54_reduce32_partial",
    "C54_reduce32_refuted",
    "C54_caddq",
    "C54_caddq_range",
    "C54_freeze_partial",
    "C54_freeze_refuted"
   ],
   "note": "REFUTED at the ends of the documented domains by C54_montgomery_refuted, C54_reduce32_refuted, C54_freeze_refuted (each off by one); proved on the rest of the domain"
  },
  {
   "property": "C55",
   "status": "proved",
   "theorems": [
    "C55_ntt",
    "C55_invntt",
    "C55_no_overflow",
    "C55"
   ],
   "note": ""
  },
  {
   "property": "C56",
   "status": "proved",
   "theorems": [
    "C56_power2round",
    "C56_decompose",
    "C56_use_hint",
    "C56_hint",
    "C56_one_step"
   ],
   "note": "both values of gamma2"
  },
  {
   "property": "C57",
   "status": "proved",
   "theorems": [
    "C57_equal_fips204",
    "C57_unpack_pack",
    "C57_pack_unpack",
    "C57_hint_pack",
    "C57_hint_canonical",
    "C57_signature",
    "C57_signature_accepted"
   ],
   "note": ""
  },
  {
   "property": "C58",
   "status": "partial",
   "theorems": [
    "C58_uniform_refuted",
    "C58_eta4_refuted",
    "C58_uniform_exact",
    "C58_eta4_exact",
    "C58_eta2",
    "C58_uniform_partial",
    "C58_eta4_partial",
    "C58_poly_uniform_partial",
    "C58_poly_eta2",
    "C58_poly_eta4_partial",
    "C58_challenge",
    "C58_mask"
   ],
   "note": "REFUTED as stated by C58_uniform_refuted and C58_eta4_refuted: refills after the first buffer use only the first 32 of 168 (matrix) or 136 of 272 bytes (eta = 4), so on streams that need a second refill bytes are skipped; exact for eta = 2, for the challenge and for the mask, and proved for all streams that need at most one refill"
  },
  {
   "property": "C59",
   "status": "proved",
   "theorems": [
    "C59_one_shot",
    "C59_sign_verify",
    "C59_streaming"
   ],
   "note": "every seed, message below 2^63 bytes, user context, RNG output, cut of the message, with or without a matrix buffer that fits the key; conditional on signing returning 0 (rejection sampling is bounded by fuel in the model)"
  },
  {
   "property": "C60",
   "status": "partial",
   "theorems": [
    "C60_refuted",
    "C60_left_expanded",
    "C60_small_buffer_refuted",
    "C60_stale_rho_ignored",
    "C60_partial",
    "C60_in_bounds"
   ],
   "note": "REFUTED as stated by C60_refuted (a used ML-DSA-44 buffer with an ML-DSA-87 key is read out of bounds: the size is checked only on expansion), C60_small_buffer_refuted and C60_stale_rho_ignored; proved for every program that calls lc_dilithium_ctx_drop_ahat between keys (the documented rule) with a buffer large enough"
  },
  {
   "property": "C61",
   "status": "partial",
   "theorems": [
    "C61_refuted"
   ],
   "note": "REFUTED: a draw that is no multiple of the digest size leaves the HMAC context finalised"
  },
  {
   "property": "C62",
   "status": "partial",
   "theorems": [
    "C62_refuted",
    "C62_injective_partial"
   ],
   "note": "REFUTED as stated by C62_refuted: the composite step overwrites -EOPNOTSUPP with 0; proved for supported algorithms"
  },
  {
   "property": "C63",
   "status": "partial",
   "theorems": [
    "C63_html_partial",
    "C63_html_alloc_partial",
    "C63_refuted",
    "C63_empty_refuted"
   ],
   "note": "REFUTED as stated; proved for every UTF-8 string with room in the buffer"
  },
  {
   "property": "C64",
   "status": "proved",
   "theorems": [
    "C64_keygen",
    "C64_keygen_total",
    "C64_encaps",
    "C64_encaps_total",
    "C64_decaps",
    "C64_decaps_total",
    "C64_matrix_unique",
    "C64_decaps_bad_key"
   ],
   "note": "soundness for every fuel, completeness whenever SampleNTT is defined"
  },
  {
   "property": "C65",
   "status": "partial",
   "theorems": [
    "C65_refuted",
    "C65_short",
    "C65_partial",
    "C65_dec_partial"
   ],
   "note": "REFUTED for requests of 1 to 3 bytes (nothing written, 0 returned); proved for 4 bytes and more"
  },
  {
   "property": "C66",
   "status": "proved",
   "theorems": [
    "C66",
    "C66_enc_ignores_aead_error"
   ],
   "note": "one-shot functions with the cSHAKE256 AEAD; additionally: the encryption function drops the AEAD's error code"
  },
  {
   "property": "C67",
   "status": "partial",
   "theorems": [
    "C67_refuted",
    "C67_never_caches",
    "C67_uncleared_refuted",
    "C67_partial"
   ],
   "note": "REFUTED by C67_refuted: the generic function allocates a context without buffer; and by C67_uncleared_refuted for allocators that do not clear memory; proved for the functions of one set on cleared memory"
  },
  {
   "property": "C68",
   "status": "proved",
   "theorems": [
    "C68_load",
    "C68_mismatch"
   ],
   "note": ""
  },
  {
   "property": "C69",
   "status": "proved",
   "theorems": [
    "C69_pct"
   ],
   "note": "conditional on the calls returning (rejection sampling is bounded by fuel)"
  },
  {
   "property": "C70",
   "status": "proved",
   "theorems": [
    "C70_sign_verify"
   ],
   "note": "at the level of the type-dispatching API"
  },
  {
   "property": "C71",
   "status": "proved",
   "theorems": [
    "C71_keygen",
    "C71_sign",
    "C71_verify"
   ],
   "note": "the portable C code with the simple thash; AVX2 and ARMv8 code is not modelled"
  },
  {
   "property": "C72",
   "status": "proved",
   "theorems": [
    "C72_failed_signature",
    "C72_refused_verify",
    "C72_type_mismatch",
    "C72_accepted"
   ],
   "note": ""
  },
  {
   "property": "C73",
   "status": "partial",
   "theorems": [
    "C73_shake256_refuted",
    "C73_stream_sign_partial",
    "C73_stream_verify_partial",
    "C73_stream_round_trip_partial"
   ],
   "note": "REFUTED by C73_shake256_refuted: with SHAKE256 at categories 1 and 3 a 32 or 48 byte digest is signed under the identifier whose digest has 64 bytes; proved for every other accepted hash function"
  },
  {
   "property": "C74",
   "status": "partial",
   "theorems": [
    "C74_fast_key_refuted",
    "C74_reloaded_fast_key_refuses",
    "C74_signature_round_trip",
    "C74_key_round_trip_partial"
   ],
   "note": "REFUTED by C74_fast_key_refuted: keys of the fast sets load as the small set (same size), and the re-loaded key refuses the signatures of its pair until the keytype function is called; proved for signatures and small keys"
  },
  {
   "property": "C75",
   "status": "partial",
   "theorems": [
    "C75_from_seed_refused",
    "C75_key_bytes_kept",
    "C75_objects_kept_refuted"
   ],
   "note": "REFUTED by C75_objects_kept_refuted: the types of both objects are overwritten before the refusal; return value and key bytes proved"
  },
  {
   "property": "C76",
   "status": "partial",
   "theorems": [
    "C76_reuse_refuted",
    "C76_context_after_streaming"
   ],
   "note": "REFUTED by C76_reuse_refuted: the default hash function stays set, so a later one-shot call signs the message as if it were a digest; the exact context afterwards is proved"
  },
  {
   "property": "C77",
   "status": "proved",
   "theorems": [
    "C77_pct",
    "C77_pct_rng_failure"
   ],
   "note": ""
  },
  {
   "property": "C78",
   "status": "partial",
   "theorems": [
    "C78_generate",
    "C78_same_partial",
    "C78_same_refuted",
    "C78_issuer_serial_refuted"
   ],
   "note": "REFUTED as stated by C78_same_refuted (the length of the first identifier is ignored) and C78_issuer_serial_refuted; generation proved, comparison proved for equal lengths and characterised exactly"
  },
  {
   "property": "C79",
   "status": "partial",
   "theorems": [
    "C79_sound",
    "C79_self_issued_refuted"
   ],
   "note": "REFUTED as stated by C79_self_issued_refuted (a self-issued certificate with a foreign key identifier is refused); soundness of the mark proved"
  },
  {
   "property": "C80",
   "status": "partial",
   "theorems": [
    "C80_trust_partial",
    "C80_signer",
    "C80_trust_refuted"
   ],
   "note": "REFUTED as stated by C80_trust_refuted (a self-signed root CA in the message is accepted without the trust store); proved with exactly this exception"
  },
  {
   "property": "C81",
   "status": "partial",
   "theorems": [
    "C81_add_refuted",
    "C81_add_partial",
    "C81_ring_refuted"
   ],
   "note": "REFUTED as stated by C81_add_refuted (signature not checked when the issuer is a root) and C81_ring_refuted (adding a member twice); the list part proved for new members"
  },
  {
   "property": "C82",
   "status": "partial",
   "theorems": [
    "C82_path_partial",
    "C82_issuer_names",
    "C82_issuer_ca_refuted",
    "C82_pathlen_refuted",
    "C82_expired_refuted"
   ],
   "note": "REFUTED as stated by C82_issuer_ca_refuted, C82_pathlen_refuted, C82_expired_refuted; keyCertSign and validity of every checked certificate proved"
  },
  {
   "property": "C83",
   "status": "proved",
   "theorems": [
    "C83_terminates",
    "C83_add_terminates"
   ],
   "note": "for lc_pkcs7_trust_store_add with a certificate that is not yet a member (see C81_ring_refuted)"
  },
  {
   "property": "C84",
   "status": "partial",
   "theorems": [
    "C84_content_partial",
    "C84_twice_refuted"
   ],
   "note": "REFUTED as stated by C84_twice_refuted (a second call skips the messageDigest check); proved for a freshly parsed message"
  },
  {
   "property": "C85",
   "status": "partial",
   "theorems": [
    "C85_is_ca",
    "C85_is_root_ca",
    "C85_key_usage",
    "C85_time_partial",
    "C85_time_refuted"
   ],
   "note": "REFUTED for time_valid by C85_time_refuted (a bound of 0 means no bound); the other policies proved"
  },
  {
   "property": "C86",
   "status": "partial",
   "theorems": [
    "C86_decode",
    "C86_order",
    "C86_accepts_partial",
    "C86_accepts_refuted"
   ],
   "note": "REFUTED in one part by C86_accepts_refuted (24:59:60 is accepted); reading and order proved, the set of accepted strings characterised exactly"
  },
  {
   "property": "C87",
   "status": "partial",
   "theorems": [
    "C87_roundtrip_partial",
    "C87_roundtrip_refuted"
   ],
   "note": "REFUTED as stated by C87_roundtrip_refuted (notBefore at the epoch); proved for every later notBefore"
  },
  {
   "property": "C88",
   "status": "partial",
   "theorems": [
    "C88_keyusage",
    "C88_eku",
    "C88_eku_refuted",
    "C88_ca_flag",
    "C88_pathlen_partial",
    "C88_pathlen_refuted",
    "C88_critical_refuted",
    "C88_decipher_only_refuted",
    "C88_host_refuted"
   ],
   "note": "REFUTED as stated by the four _refuted theorems; key usage bits, cA flag and path lengths from 1 on proved for little-endian hosts"
  },
  {
   "property": "C89",
   "status": "partial",
   "theorems": [
    "C89_fits",
    "C89_cn_partial",
    "C89_cn_refuted"
   ],
   "note": "REFUTED as stated by C89_cn_refuted (length taken modulo 256); buffer bound proved, names below 256 bytes proved"
  },
  {
   "property": "C90",
   "status": "proved",
   "theorems": [
    "C90_memory_safe",
    "C90_calls",
    "C90_any_table_refuted"
   ],
   "note": "for the 14 grammars of asn1/src; C90_any_table_refuted shows that it does not hold for arbitrary bytecode, so the check on the tables is needed"
  },
  {
   "property": "C91",
   "status": "proved",
   "theorems": [
    "C91_terminates",
    "C91_linear"
   ],
   "note": "for the 14 grammars of asn1/src and every behaviour of the action functions"
  },
  {
   "property": "C92",
   "status": "proved",
   "theorems": [
    "C92_mldsa_privkey",
    "C92_composite",
    "C92_eku",
    "C92_single",
    "C92_basic_constraints"
   ],
   "note": "for the private key, composite, extended key usage, key usage, subject key identifier and basic constraints grammars"
  },
  {
   "property": "C93",
   "status": "partial",
   "theorems": [
    "C93_der_refuted",
    "C93_trailing_refuted",
    "C93_single_partial"
   ],
   "note": "REFUTED as stated by C93_der_refuted (trailing bytes, long lengths, indefinite form, primitive SEQUENCE tag) and C93_trailing_refuted; for the one-element grammars the tag and the slice handed over are proved"
  },
  {
   "property": "C94",
   "status": "partial",
   "theorems": [
    "C94_validity_refuted",
    "C94_empty_subject_refuted",
    "C94_signerinfos_refuted"
   ],
   "note": "REFUTED as stated: a Validity without notAfter (or empty) and a SignedData without signerInfos are accepted, an empty subject is refused"
  },
  {
   "property": "C95",
   "status": "proved",
   "theorems": [
    "C95_lookup",
    "C95_data",
    "C95_distinct",
    "C95_parse"
   ],
   "note": "inputs shorter than 2^32 bytes"
  },
  {
   "property": "C96",
   "status": "partial",
   "theorems": [
    "C96_print_partial",
    "C96_registered",
    "C96_truncated",
    "C96_print_refuted"
   ],
   "note": "REFUTED as stated by C96_print_refuted (2.40 is printed as 3.0, an arc of 2^64 as 0); proved for second arcs below 40 and arcs below 2^64, and for all registered identifiers"
  },
  {
   "property": "C97",
   "status": "partial",
   "theorems": [
    "C97_strength",
    "C97_check_hash",
    "C97_sigs",
    "C97_hashes",
    "C97_only",
    "C97_names",
    "C97_dispatch",
    "C97_dispatch_complete",
    "C97_tables_refuted"
   ],
   "note": "REFUTED as stated by C97_tables_refuted (ML-DSA-87 with Ed25519 has no identifier and no name, ML-DSA-87 with Ed448 has the wrong name, RSA types do not come back); proved for the eleven other algorithms, all digests, the strength check and the dispatch"
  },
  {
   "property": "C98",
   "status": "partial",
   "theorems": [
    "C98_length",
    "C98_length_size",
    "C98_integer",
    "C98_integer_refuted",
    "C98_oid_refuted"
   ],
   "note": "REFUTED as stated by C98_integer_refuted (zero is written as three octets but charged as two) and C98_oid_refuted (the first arcs overwrite the tag); lengths and non-zero integers are proved"
  },
  {
   "property": "C99",
   "status": "partial",
   "theorems": [
    "C99_encoder",
    "C99_terminates",
    "C99_unbounded_refuted"
   ],
   "note": "all parts proved for the 14 tables in use; REFUTED as stated by C99_unbounded_refuted only in the last clause: a callback that always asks to continue is called for ever; the run ends if such requests are bounded"
  }
 ]
}