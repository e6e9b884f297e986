{"id": "C01", "title": "SHA-3/SHAKE/cSHAKE: absorbing in pieces equals absorbing at once, and both equal the FIPS 202 sponge", "statement": "Feeding a message to an initialised SHA3-224/256/384/512, SHAKE or cSHAKE context through any sequence of update calls and then finalising returns exactly the FIPS 202 sponge output (pad10*1 with the variant's suffix byte) of the concatenated message.", "quantifier": "for every message, every way of cutting it into update calls (including empty pieces), every supported rate", "why_tests_cant": "Tests try a handful of lengths and splits; the buffering code branches on length modulo the rate, and infinitely many message/split pairs exist.", "anchors": ["hash/src/sha3_c.c: keccak_absorb, keccak_squeeze", "hash/src/sponge_common.h: sponge_fill_state_bytes, sponge_extract_bytes", "hash/src/hash.c: lc_hash"]}
{"id": "C02", "title": "XOF output is one stream however it is read", "statement": "After absorbing, reading n1, n2, ... bytes in successive squeeze calls yields consecutive pieces of the same output stream that a single read would return.", "quantifier": "for every absorbed message, every list of read sizes, every rate", "why_tests_cant": "Read sizes interact with the block boundary and an 8 bit offset counter; only a few sizes can be tried.", "anchors": ["hash/src/sha3_c.c: keccak_squeeze", "hash/src/cshake.c: lc_cshake_final"]}
{"id": "C03", "title": "The Keccak-f[1600] permutation code computes FIPS 202 Keccak-f", "statement": "The unrolled permutation used by all SHA-3 family functions equals the 24 rounds of theta, rho, pi, chi, iota as defined in FIPS 202.", "quantifier": "for every 1600 bit state", "why_tests_cant": "2^1600 states; test vectors exercise a few.", "anchors": ["hash/src/sha3_c.c: keccakp_1600"]}
{"id": "C04", "title": "SHA-256 streaming equals FIPS 180-4", "statement": "Any sequence of SHA-256 update calls followed by final returns the FIPS 180-4 digest of the concatenation.", "quantifier": "for every message shorter than 2^61 bytes and every split into updates", "why_tests_cant": "Padding has a corner case whenever the last block has fewer than nine free bytes; splits are unbounded.", "anchors": ["hash/src/sha256.c: sha256_transform, sha256_update, sha256_final"]}
{"id": "C05", "title": "SHA-512 and SHA-384 streaming equals FIPS 180-4", "statement": "Any sequence of SHA-512/SHA-384 update calls followed by final returns the FIPS 180-4 digest of the concatenation.", "quantifier": "for every message shorter than 2^61 bytes and every split into updates", "why_tests_cant": "As for SHA-256; moreover the 128 bit length field is filled from a 64 bit counter.", "anchors": ["hash/src/sha512.c: sha512_transform, sha512_update, sha512_final, sha384_final"]}
{"id": "C06", "title": "Ascon-Hash/XOF: absorbing in pieces equals absorbing at once", "statement": "Feeding a message to an Ascon-Hash256/XOF128 context in any pieces gives the same digest as feeding it in one call.", "quantifier": "for every message and every split", "why_tests_cant": "Only particular splits (a partial block completed exactly, with nothing following in that call) misbehave; fixed test vectors use one-shot input.", "anchors": ["hash/src/ascon_hash.h: ascon_absorb_common, ascon_squeeze_common"]}
{"id": "C07", "title": "Ascon-Hash one-shot equals NIST SP 800-232", "statement": "Hashing a message in a single update produces the SP 800-232 Ascon-Hash256/XOF128 sponge output.", "quantifier": "for every message and every output length", "why_tests_cant": "Unbounded message lengths.", "anchors": ["hash/src/ascon_hash.h", "hash/src/ascon_c.c: ascon_permutation"]}
{"id": "C08", "title": "Absorbing again after reading output mixes the new data into all later output", "statement": "Data absorbed into a Keccak based XOF/KMAC context after some output was read influences later output only through the permutation (the later output is that of a sponge on old data, separator and new data), never as a plain XOR with the old stream.", "quantifier": "for every old data, amount read, new data", "why_tests_cant": "Reseed-after-generate orders are not covered by known answer tests.", "anchors": ["hash/src/sha3_c.c: keccak_absorb, keccak_squeeze", "kmac/src/kmac.c: lc_kmac_rng_generate, lc_kmac_rng_seed"]}
{"id": "C09", "title": "SP 800-185 integer encodings are unambiguous", "statement": "left_encode and right_encode yield the SP 800-185 strings; left_encode is prefix free, so bytepad(encode_string(N)||encode_string(S)) determines N and S.", "quantifier": "for all integers below 2^64 and all strings whose bit length fits 64 bits", "why_tests_cant": "Injectivity is a statement about all pairs.", "anchors": ["internal/src/left_encode.c: lc_left_encode", "kmac/src/kmac.c: right_encode", "hash/src/cshake.c: lc_cshake_init"]}
{"id": "C10", "title": "cSHAKE equals SP 800-185", "statement": "Initialising with N and S and absorbing X gives KECCAK[c](bytepad(encode_string(N)||encode_string(S), rate)||X||00) and SHAKE when both are empty.", "quantifier": "for every N, S, X below 2^61 bytes, every split of X and every output length, starting from a freshly set up context", "why_tests_cant": "Padding to the rate depends on the lengths of N and S.", "anchors": ["hash/src/cshake.c: lc_cshake_init"]}
{"id": "C11", "title": "Re-initialising a cSHAKE context forgets the past", "statement": "Calling lc_cshake_init on a context gives the same state whatever the context was used for before.", "quantifier": "for every previous use of the context", "why_tests_cant": "Tests use fresh contexts.", "anchors": ["hash/src/cshake.c: lc_cshake_init, lc_cshake_ctx_init, lc_cshake_ctx_reinit"]}
{"id": "C12", "title": "KMAC equals SP 800-185 and KMACXOF", "statement": "init(key, S), any updates, final(n bytes) returns KMAC(K,X,8n,S); final_xof returns KMACXOF and can be read piecewise.", "quantifier": "for every key, S, data split and output length of at least 4 bytes (KMAC) or any length (XOF)", "why_tests_cant": "Unbounded inputs; key and S padded to the rate.", "anchors": ["kmac/src/kmac.c: lc_kmac_init, lc_kmac_update, lc_kmac_final, lc_kmac_final_xof"]}
{"id": "C13", "title": "A KMAC context can be reinitialised", "statement": "After lc_kmac_reinit the context behaves like after lc_kmac_init with the same key and customisation string.", "quantifier": "for every key, S and every data absorbed and output read before", "why_tests_cant": "Quantifies over all histories.", "anchors": ["kmac/src/kmac.c: lc_kmac_reinit"]}
{"id": "C14", "title": "HMAC equals RFC 2104", "statement": "init(key), any updates, final returns H((K0 xor opad)||H((K0 xor ipad)||m)), with K0 the zero padded key or its digest when longer than the block.", "quantifier": "for every key length including exactly the block size, every message and split, every hash", "why_tests_cant": "Key length has three regimes; splits unbounded.", "anchors": ["hmac/src/hmac.c: lc_hmac_init, lc_hmac_reinit, lc_hmac_update, lc_hmac_final"]}
{"id": "C15", "title": "HKDF equals RFC 5869", "statement": "lc_hkdf returns the first dlen bytes of T(1)||T(2)||... for every dlen that RFC 5869 permits (up to 255 digests), and an error beyond.", "quantifier": "for every ikm, salt, info and dlen", "why_tests_cant": "The limit case of 255 blocks and every dlen are not enumerated by tests.", "anchors": ["kdf/src/hkdf.c: lc_hkdf_extract, lc_hkdf_expand, lc_hkdf"]}
{"id": "C16", "title": "HKDF used as an RNG is one stream", "statement": "After seeding, drawing n1, n2, ... bytes yields consecutive pieces of the RFC 5869 expand stream.", "quantifier": "for every seed, info and every list of request sizes within the limit", "why_tests_cant": "Request sizes interact with the leftover buffer.", "anchors": ["kdf/src/hkdf.c: lc_hkdf_rng_generate, lc_hkdf_rng_seed"]}
{"id": "C17", "title": "SP 800-108 KDFs equal the standard", "statement": "Counter, feedback and double pipeline KDFs output the SP 800-108 byte string.", "quantifier": "for every key, label, iv and output length up to 2^32-1 blocks", "why_tests_cant": "Output length regimes (multiple of digest, shorter than digest) and empty labels.", "anchors": ["kdf/src/kdf_ctr.c", "kdf/src/kdf_fb.c", "kdf/src/kdf_dpi.c"]}
{"id": "C18", "title": "PBKDF2 equals RFC 8018", "statement": "lc_pbkdf2 returns T_1||T_2||... truncated, T_i the XOR of the count iterates.", "quantifier": "for every password, salt, iteration count and key length", "why_tests_cant": "Iteration counts and lengths unbounded.", "anchors": ["kdf/src/pbkdf2.c: lc_pbkdf2"]}
{"id": "C19", "title": "HOTP/TOTP equal RFC 4226/6238", "statement": "The returned number is the dynamic truncation of HMAC(key, counter) modulo 10^digits for each digits value the API accepts, without undefined behaviour.", "quantifier": "for every key, counter and digits value", "why_tests_cant": "Only 6..8 digits are tested; overflow happens outside.", "anchors": ["otp/src/hotp.c: lc_hotp", "otp/src/totp.c: lc_totp"]}
{"id": "C20", "title": "Constant time compare returns 0 exactly for equal buffers", "statement": "lc_memcmp_secure(a,alen,b,blen)=0 iff alen=blen and the bytes agree (alen up to the compared length), for every alignment path.", "quantifier": "for every pair of buffers of any length and any alignment", "why_tests_cant": "Word wise paths, tails and alignments multiply; equality claims need all pairs.", "anchors": ["internal/src/memcmp_secure_internal.h", "internal/src/memcmp_secure_c.c: lc_memcmp_secure"]}
{"id": "C21", "title": "Hex conversion round trips and stays in bounds", "statement": "bin2hex then hex2bin returns the input; hex2bin writes at most binlen bytes.", "quantifier": "for every byte string and every buffer length", "why_tests_cant": "Odd lengths and truncated buffers.", "anchors": ["internal/src/binhexbin.c: lc_hex2bin, lc_bin2hex"]}
{"id": "C22", "title": "Signature domain separation is injective", "statement": "The bytes hashed ahead of the message by ML-DSA/SLH-DSA determine the pre-hash mode, algorithm and user context; contexts over 255 bytes are refused.", "quantifier": "for all pairs of contexts and modes", "why_tests_cant": "Injectivity quantifies over all pairs.", "anchors": ["internal/src/signature_domain_separation.c: signature_domain_separation, signature_ph_oids"]}
{"id": "C23", "title": "Hash DRBG equals SP 800-90A", "statement": "Seed, reseed and generate follow Hash_DRBG of SP 800-90A with SHA-512: same outputs and same V, C, counter.", "quantifier": "for every seed, personalisation, additional input and sequence of requests", "why_tests_cant": "Multi-precision carries and long request sequences.", "anchors": ["drng/src/hash_drbg.c"]}
{"id": "C24", "title": "HMAC DRBG equals SP 800-90A", "statement": "Seed, reseed and generate follow HMAC_DRBG of SP 800-90A with HMAC-SHA-512.", "quantifier": "for every seed, personalisation, additional input and sequence of requests", "why_tests_cant": "Unbounded sequences.", "anchors": ["drng/src/hmac_drbg.c"]}
{"id": "C25", "title": "DRNG never outputs before it was seeded", "statement": "A generate call on a context that was never successfully seeded returns an error and writes nothing.", "quantifier": "for every DRNG type and request", "why_tests_cant": "Error paths on unseeded contexts are not tested.", "anchors": ["drng/src/hash_drbg.c: lc_drbg_hash_generate", "drng/src/hmac_drbg.c: lc_drbg_hmac_generate", "drng/src/xdrbg.c: lc_xdrbg_drng_generate", "drng/src/cshake_drng.c: lc_cshake_rng_generate", "drng/src/kmac_drng.c: lc_kmac_rng_generate"]}
{"id": "C26", "title": "XDRBG seeding and generation follow the XDRBG definition and separate their inputs", "statement": "The seed/reseed/generate state updates are XOF(ENCODE(...)) as specified; generate erases the old state before returning; encodings of (seed, alpha, n) are injective up to the documented alpha limit.", "quantifier": "for every state, seed, additional input and output length", "why_tests_cant": "Chunked generation loop and encodings need universal reasoning.", "anchors": ["drng/src/xdrbg.c"]}
{"id": "C27", "title": "cSHAKE and KMAC DRNGs: backtracking resistance by construction and chunked generation", "statement": "Each generate call first derives a fresh key from the XOF stream and never outputs those bytes; the returned data is the remaining stream, chunk after chunk re-keyed.", "quantifier": "for every key, additional input and output length", "why_tests_cant": "Unbounded output sizes and sequences.", "anchors": ["drng/src/cshake_drng.c", "drng/src/kmac_drng.c"]}
{"id": "C28", "title": "ChaCha20 DRNG never reuses output words as key material and counts blocks without repetition", "statement": "Words handed to the caller are never XORed into the next key; consecutive blocks within one key use distinct counters.", "quantifier": "for every request size and state with counter room", "why_tests_cant": "Depends on request length modulo the block.", "anchors": ["drng/src/chacha20_drng.c: cc20_generate, cc20_update"]}
{"id": "C29", "title": "The seeded RNG reseeds before its thresholds are exceeded", "statement": "Each generate served by the seeded RNG happens with a seed no older than 60 seconds, at most 2^20 bytes plus one request since the seed, and the current process id; if seeding fails the call fails and the next call retries.", "quantifier": "for every sequence of calls, sizes and clock values", "why_tests_cant": "State machine over unbounded histories and clocks.", "anchors": ["drng/src/seeded_rng.c"]}
{"id": "C30", "title": "AEAD decrypt inverts encrypt (Ascon family)", "statement": "Decrypting with the same key, nonce, AAD and tag returns the plaintext and 0, for Ascon-AEAD128 and Ascon-Keccak.", "quantifier": "for every key, nonce, AAD, plaintext and split of the stream into update calls", "why_tests_cant": "Partial block offsets; splits unbounded.", "anchors": ["aead/src/ascon.c"]}
{"id": "C31", "title": "Ascon AEAD equals NIST SP 800-232", "statement": "Ciphertext and tag of lc_ascon_lw equal SP 800-232 Ascon-AEAD128.", "quantifier": "for every key, nonce, AAD, plaintext", "why_tests_cant": "Whole-block and empty-AAD cases are outside small vectors.", "anchors": ["aead/src/ascon.c", "aead/src/ascon_lightweight.c"]}
{"id": "C32", "title": "Ascon AEAD: the tag binds the length of the message", "statement": "Two different ciphertexts under the same key/nonce/AAD do not trivially have equal tags; in particular a message and its prefix differ in the authenticated string.", "quantifier": "for every key, nonce, AAD", "why_tests_cant": "Structural collision; needs all keys.", "anchors": ["aead/src/ascon.c: lc_ascon_enc_final"]}
{"id": "C33", "title": "AEAD decrypt inverts encrypt (cSHAKE, KMAC, Hash, Sym-HMAC, Sym-KMAC)", "statement": "For each encrypt-then-MAC AEAD, decrypting what encrypt produced under the same key, IV and AAD returns the plaintext and 0.", "quantifier": "for every key, IV, AAD, plaintext (whole blocks for CBC), tag length and split", "why_tests_cant": "Unbounded inputs, keystream position carried across calls.", "anchors": ["aead/src/cshake_crypt.c", "aead/src/kmac_crypt.c", "aead/src/hash_crypt.c", "aead/src/symhmac.c", "aead/src/symkmac.c"]}
{"id": "C34", "title": "AEAD decrypt accepts exactly the recomputed tag", "statement": "Decrypt returns 0 iff the supplied tag equals the tag recomputed over AAD and ciphertext, otherwise -EBADMSG.", "quantifier": "for every key, IV, AAD, ciphertext, tag", "why_tests_cant": "All tags.", "anchors": ["aead/src/ascon.c: lc_ascon_dec_final", "aead/src/cshake_crypt.c", "aead/src/kmac_crypt.c", "aead/src/symhmac.c", "aead/src/symkmac.c", "aead/src/hash_crypt.c"]}
{"id": "C35", "title": "The AEAD tag separates AAD from ciphertext", "statement": "Moving bytes between AAD and ciphertext changes the authenticated string, so the tag of one is not valid for the other.", "quantifier": "for every key, IV and pair (AAD, ciphertext)", "why_tests_cant": "Needs all pairs; tests fix AAD and ciphertext.", "anchors": ["aead/src/cshake_crypt.c", "aead/src/kmac_crypt.c", "aead/src/hash_crypt.c", "aead/src/symhmac.c", "aead/src/symkmac.c"]}
{"id": "C36", "title": "An AEAD call that could not encrypt reports failure", "statement": "Encrypt or setkey never returns success while leaving output or tag unwritten (wrong tag length, failed setkey, trailing partial block).", "quantifier": "for every call sequence", "why_tests_cant": "Misuse paths are not tested.", "anchors": ["aead/src/aead_api.c", "aead/src/ascon.c: lc_ascon_enc_final", "aead/src/symhmac.c"]}
{"id": "C37", "title": "AES decrypt inverts encrypt", "statement": "For AES-128/192/256 decrypting an encrypted block gives the block back.", "quantifier": "for every key and block", "why_tests_cant": "2^128 blocks times 2^256 keys.", "anchors": ["sym/src/aes_sbox.c: aes_cipher, aes_inv_cipher, aes_key_expansion"]}
{"id": "C38", "title": "AES equals FIPS 197", "statement": "Block encryption and key expansion equal FIPS 197, with the S-box equal to inversion in GF(2^8) followed by the affine map.", "quantifier": "for every key and block", "why_tests_cant": "Input space; table entries.", "anchors": ["sym/src/aes_sbox.c"]}
{"id": "C39", "title": "The table-free AES computes the same function as the table AES", "statement": "The side channel resistant AES and the S-box AES give identical ciphertexts and plaintexts.", "quantifier": "for every key and block", "why_tests_cant": "Input space.", "anchors": ["sym/src/aes_no_sbox.c", "sym/src/aes_scr_helper.h", "sym/src/aes_sbox.c"]}
{"id": "C40", "title": "setkey refuses invalid AES key lengths", "statement": "Setting a key whose length is not 16, 24 or 32 returns an error and leaves no usable key.", "quantifier": "for every key length", "why_tests_cant": "Tests use valid lengths.", "anchors": ["sym/src/aes_block.c: aes_setkey", "sym/src/aes_internal.h: aes_set_type", "sym/src/mode_cbc.c", "sym/src/mode_ctr.c", "sym/src/mode_kw.c"]}
{"id": "C41", "title": "CBC mode equals SP 800-38A and round trips across calls", "statement": "Encrypting whole blocks in any number of calls equals one-shot CBC; decrypt inverts.", "quantifier": "for every key, IV, data of whole blocks and split at block boundaries", "why_tests_cant": "Unbounded.", "anchors": ["sym/src/mode_cbc.c"]}
{"id": "C42", "title": "CTR mode: counter is a 128 bit big-endian increment and the cipher is its own inverse", "statement": "The counter increments modulo 2^128; en/decryption of a stream equals XOR with E(ctr), E(ctr+1), ...", "quantifier": "for every key, IV, data", "why_tests_cant": "Carry propagation across 64 bit halves is hit once in 2^64.", "anchors": ["sym/src/mode_ctr.c", "sym/src/mode_ctr.h: ctr128_inc"]}
{"id": "C43", "title": "Stream ciphers are independent of how data is cut", "statement": "CTR and ChaCha20 (advertised block size 1) give the same output for any cutting of the data.", "quantifier": "for every key, data and split", "why_tests_cant": "Splits unbounded.", "anchors": ["sym/src/mode_ctr.c", "sym/src/chacha20.c: cc20_crypt"]}
{"id": "C44", "title": "AES key wrap equals RFC 3394, round trips, and unwrap rejects anything with a wrong integrity value", "statement": "wrap/unwrap equal RFC 3394; unwrap returns 0 iff the recovered A equals A6..A6 for data of at least 16 bytes.", "quantifier": "for every key and data of n>=2 semiblocks; and for every input length", "why_tests_cant": "Short and ragged lengths are not tested.", "anchors": ["sym/src/mode_kw.c"]}
{"id": "C45", "title": "ChaCha20 equals RFC 8439 and setting an IV restarts the stream", "statement": "The block function equals RFC 8439; after setkey and setiv encryption starts at counter 1.", "quantifier": "for every key, nonce, data, and whatever happened earlier on the context", "why_tests_cant": "Context reuse.", "anchors": ["sym/src/chacha20.c"]}
{"id": "C46", "title": "ML-KEM modular reductions are exact and cannot overflow", "statement": "Montgomery, Barrett and conditional subtraction return the right residue in the documented range with no signed overflow.", "quantifier": "for every input in the documented domain", "why_tests_cant": "2^32 inputs for each, ranges compose.", "anchors": ["ml-kem/src/kyber_reduce.h"]}
{"id": "C47", "title": "ML-KEM NTT and base multiplication implement ring multiplication", "statement": "invntt(basemul(ntt a, ntt b)) is a*b in Z_q[X]/(X^256+1) up to the Montgomery factor, and invntt inverts ntt.", "quantifier": "for all polynomials with coefficients in the documented range", "why_tests_cant": "3329^512 inputs.", "anchors": ["ml-kem/src/kyber_ntt.c", "ml-kem/src/kyber_poly.c", "ml-kem/src/kyber_zetas.c"]}
{"id": "C48", "title": "ML-KEM compression equals FIPS 203 rounding", "statement": "Compress_d by multiplication and shift equals round(2^d/q x) mod 2^d, decompress(compress x) differs from x by at most round(q/2^(d+1)).", "quantifier": "for every coefficient and every used d", "why_tests_cant": "Exhaustive only with proof.", "anchors": ["ml-kem/src/kyber_poly.c: poly_compress", "ml-kem/src/kyber_polyvec.c: polyvec_compress", "ml-kem/src/kyber_poly.h"]}
{"id": "C49", "title": "ML-KEM serialisation round trips and is canonical", "statement": "frombytes(tobytes p)=p for reduced p; the modulus check accepts exactly the encodings of reduced vectors; tomsg(frommsg m)=m.", "quantifier": "for all polynomials and all byte strings", "why_tests_cant": "Input space.", "anchors": ["ml-kem/src/kyber_poly.h", "ml-kem/src/kyber_kem_input_validation.h"]}
{"id": "C50", "title": "ML-KEM decapsulation: implicit rejection", "statement": "dec returns the encapsulated secret iff re-encryption gives exactly the received ciphertext, and otherwise SHAKE256(z||ct); it never reports the difference through its return code.", "quantifier": "for every secret key passing the hash check and every ciphertext", "why_tests_cant": "All ciphertexts.", "anchors": ["ml-kem/src/kyber_kem.c: lc_kyber_dec"]}
{"id": "C51", "title": "ML-KEM encapsulation and decapsulation agree", "statement": "If the PKE decrypts m correctly then dec returns the secret that enc returned; for the real PKE this holds whenever the error term stays below q/4.", "quantifier": "for every key pair seed, message and ciphertext", "why_tests_cant": "All seeds.", "anchors": ["ml-kem/src/kyber_kem.c", "ml-kem/src/kyber_indcpa.c"]}
{"id": "C52", "title": "Key exchange parties derive the same secret", "statement": "After the UAKE/AKE message exchange both sides derive the same shared secret.", "quantifier": "for every key pair, randomness and kdf nonce", "why_tests_cant": "All keys.", "anchors": ["ml-kem/src/kyber_kex.c"]}
{"id": "C53", "title": "The hybrid KEM key depends on both shared secrets", "statement": "The secret derived by the ML-KEM+X25519 KEM KDF is a function of both the ML-KEM and the X25519 shared secret: it is KMAC keyed with their concatenation.", "quantifier": "for every pair of shared secrets and ciphertexts", "why_tests_cant": "Both sides compute the same wrong thing so round trip tests pass.", "anchors": ["ml-kem/src/kyber_x25519_kdf.h: kyber_x25519_ss_kdf", "ml-kem/src/kyber_x25519_kem.c"]}
{"id": "C54", "title": "ML-DSA modular reductions are exact and cannot overflow", "statement": "montgomery_reduce, reduce32, caddq, freeze return the right residue in the documented range.", "quantifier": "for every input in the documented domain", "why_tests_cant": "2^55 inputs.", "anchors": ["ml-dsa/src/dilithium_reduce.h"]}
{"id": "C55", "title": "ML-DSA NTT implements ring multiplication", "statement": "invntt(pointwise(ntt a, ntt b)) is the product in Z_q[X]/(X^256+1).", "quantifier": "for all polynomials in the documented range", "why_tests_cant": "q^512 inputs.", "anchors": ["ml-dsa/src/dilithium_ntt.c", "ml-dsa/src/dilithium_zetas.c"]}
{"id": "C56", "title": "ML-DSA rounding and hints are correct", "statement": "Power2Round/Decompose equal FIPS 204; UseHint(MakeHint) recovers the high bits of the perturbed value; hint flips move high bits by one step only.", "quantifier": "for every coefficient in [0,q) and every perturbation up to gamma2", "why_tests_cant": "q^2 pairs.", "anchors": ["ml-dsa/src/dilithium_rounding.c"]}
{"id": "C57", "title": "ML-DSA encodings round trip and the hint encoding is canonical", "statement": "pack/unpack of t1, t0, eta, z, w1 invert; unpacking a signature accepts exactly one byte string for each hint vector.", "quantifier": "for all coefficients in range, all byte strings", "why_tests_cant": "Strong unforgeability needs all strings.", "anchors": ["ml-dsa/src/dilithium_poly.c", "ml-dsa/src/dilithium_pack.h: unpack_sig_h"]}
{"id": "C58", "title": "ML-DSA matrix and secret sampling equal FIPS 204 for every XOF stream", "statement": "poly_uniform and poly_uniform_eta return the first 256 accepted candidates of the XOF byte stream.", "quantifier": "for every XOF output stream", "why_tests_cant": "Streams that need more than the initial buffer occur with probability below 2^-100.", "anchors": ["ml-dsa/src/dilithium_poly.c: poly_uniform, poly_uniform_eta", "ml-dsa/src/dilithium_service_helpers.h"]}
{"id": "C59", "title": "ML-DSA: what sign outputs verify accepts", "statement": "A signature returned by lc_dilithium_sign for a key pair made by lc_dilithium_keypair is accepted by lc_dilithium_verify for the same message and context.", "quantifier": "for every seed, message, context and signing randomness for which signing returns", "why_tests_cant": "All seeds and messages.", "anchors": ["ml-dsa/src/dilithium_signature_impl.h"]}
{"id": "C60", "title": "ML-DSA contexts with a cached matrix follow the key", "statement": "Signing or verifying with a context that caches the expanded matrix gives the same result as without the cache, also when the context is used with another key.", "quantifier": "for every sequence of keys used with one context", "why_tests_cant": "Tests use one key for each context.", "anchors": ["ml-dsa/src/dilithium_signature_impl.h: lc_dilithium_sign_internal, lc_dilithium_verify_internal"]}
{"id": "C61", "title": "KDF-CTR used as an RNG continues the SP 800-108 stream", "statement": "After seeding, each block drawn is HMAC(seed, counter||label) with the counter continuing over draws.", "quantifier": "for every seed and every list of request sizes", "why_tests_cant": "Tests draw once per context.", "anchors": ["kdf/src/kdf_ctr.c: lc_kdf_ctr_rng_generate, lc_kdf_ctr_generate_internal"]}
{"id": "C62", "title": "Composite signature domain separation is injective too", "statement": "With the composite flag the bytes hashed ahead of the message still determine the pre-hash algorithm and the user context, and an unsupported pre-hash algorithm is refused.", "quantifier": "for all pairs of pre-hash algorithms, contexts, messages and categories", "why_tests_cant": "Tests use the supported combination only.", "anchors": ["internal/src/signature_domain_separation.c: signature_domain_separation, composite_signature_domain_separation"]}
{"id": "C63", "title": "Percent encoding of strings is exact and stays in its buffers", "statement": "bin2hex_html and bin2hex_html_alloc never access memory outside the string and the output buffer; on success the output is the RFC 3986 percent encoding followed by NUL.", "quantifier": "for every string and every buffer length", "why_tests_cant": "Truncated multi-byte characters and empty buffers are not in the tests.", "anchors": ["internal/src/binhexbin.c: _bin2hex_html, bin2hex_html, bin2hex_html_alloc"]}
{"id": "C64", "title": "ML-KEM key generation, encapsulation and decapsulation are FIPS 203", "statement": "Byte for byte the public key, secret key, ciphertext and shared secret are those of FIPS 203 for the same seed and message; a secret key with a wrong public key hash is refused.", "quantifier": "for ML-KEM-512/768/1024, every seed, message, public key, secret key and ciphertext", "why_tests_cant": "Known answer tests cover a handful of seeds; rejection sampling refills and decoding of unreduced coefficients need all inputs.", "anchors": ["ml-kem/src/kyber_kem.c", "ml-kem/src/kyber_indcpa.c", "ml-kem/src/kyber_poly.c", "ml-kem/src/kyber_polyvec.c", "ml-kem/src/kyber_kdf.h"]}
{"id": "C65", "title": "A derived KEM secret has the requested length", "statement": "lc_kyber_enc_kdf and lc_kyber_dec_kdf return 0 and the number of bytes asked for, namely KMAC256(ss, ct, n, label).", "quantifier": "for every requested length, key and ciphertext", "why_tests_cant": "Tests ask for 16 bytes and more.", "anchors": ["ml-kem/src/kyber_kem.c: _lc_kyber_enc_kdf_internal, lc_kyber_dec_kdf", "ml-kem/src/kyber_kdf.h: kyber_ss_kdf", "hmac/src/kmac.c: lc_kmac_final"]}
{"id": "C66", "title": "KyberIES decrypts what it encrypts", "statement": "lc_kyber_ies_dec of the output of lc_kyber_ies_enc returns 0 and the plaintext.", "quantifier": "for every key pair seed, message randomness (low noise), plaintext and AAD", "why_tests_cant": "All keys and lengths.", "anchors": ["ml-kem/src/kyber_ies.c: lc_kyber_ies_enc, lc_kyber_ies_dec"]}
{"id": "C67", "title": "A context allocated for the matrix cache is fresh and has the buffer", "statement": "lc_dilithium_ctx_alloc_ahat and lc_dilithium_44/65/87_ctx_alloc_ahat return a context with a matrix buffer large enough for the set, no matrix held, and default settings.", "quantifier": "for every content of the memory handed out by the allocator and each parameter set", "why_tests_cant": "A test sees one allocator and mostly cleared pages; a missing cache shows only as lost speed.", "anchors": ["ml-dsa/src/dilithium_api.c: lc_dilithium_ctx_alloc_ahat", "ml-dsa/src/dilithium_signature_helper.c: lc_dilithium_ctx_alloc_ahat", "ml-dsa/api/lc_dilithium_size.h.in: LC_DILITHIUM_SET_CTX"]}
{"id": "C68", "title": "Loading an ML-DSA key or signature accepts the three sizes and is undone by the pointer functions", "statement": "lc_dilithium_sk_load, pk_load and sig_load return 0 exactly for the size of one of the three sets, the set follows from the size, the ptr functions return the bytes loaded, a failing load changes nothing; a signature of another set than the key's is refused.", "quantifier": "for every byte string and every object loaded into", "why_tests_cant": "Tests load keys of the right size.", "anchors": ["ml-dsa/src/dilithium_api.c: lc_dilithium_sk_load, lc_dilithium_pk_load, lc_dilithium_sig_load, lc_dilithium_sk_ptr, lc_dilithium_verify"]}
{"id": "C69", "title": "The ML-DSA pairwise consistency test passes for every generated key pair", "statement": "lc_dilithium_pct of a pair from lc_dilithium_keypair_from_seed returns 0, or the error of the random number generator.", "quantifier": "for every seed, parameter set, random number generator output and workspace content", "why_tests_cant": "All seeds cannot be tried.", "anchors": ["ml-dsa/src/dilithium_pct.c: lc_dilithium_pct", "ml-dsa/src/dilithium_api.c: lc_dilithium_sign, lc_dilithium_verify"]}
{"id": "C70", "title": "What a generated SLH-DSA key signs, verifies", "statement": "lc_sphincs_verify_ctx accepts (0) every signature lc_sphincs_sign_ctx makes (0) with a pair from lc_sphincs_keypair; the three calls return 0 whenever the context is acceptable and the RNG works.", "quantifier": "for the six SHAKE parameter sets, every output of the key RNG, every message below 2^64 - 1000 bytes, every accepted context (internal, pure, pre-hashed), deterministic or randomised signing, and every old content of the objects", "why_tests_cant": "A signature touches one of up to 2^68 leaves of the hypertree; tests try a handful.", "anchors": ["slh-dsa/src/sphincs_sign.c", "slh-dsa/src/sphincs_fors.c", "slh-dsa/src/sphincs_merkle.c", "slh-dsa/src/sphincs_wots.c", "slh-dsa/src/sphincs_api.c"]}
{"id": "C71", "title": "SLH-DSA keys, signatures and verdicts are those of FIPS 205", "statement": "lc_sphincs_keypair yields the keys of Algorithm 18, lc_sphincs_sign_ctx the signature of Algorithm 19 over the message representative of Algorithms 22 to 25, and lc_sphincs_verify_ctx returns 0 exactly for the signatures Algorithm 20 accepts, -EBADMSG for all other.", "quantifier": "for the six SHAKE parameter sets, every key, message below 2^64 - 1000 bytes, accepted context, randomizer, and for verification every byte string as signature and public key", "why_tests_cant": "Interoperability fails on rare index patterns (checksum digits, last layer, left/right siblings) which few vectors exercise.", "anchors": ["slh-dsa/src/sphincs_sign.c", "slh-dsa/src/sphincs_hash_shake.c", "slh-dsa/src/sphincs_utils.c", "slh-dsa/src/sphincs_utilsx1.c", "slh-dsa/src/sphincs_wots.c", "slh-dsa/src/sphincs_wotsx1.c", "slh-dsa/src/sphincs_address.h"]}
{"id": "C72", "title": "SLH-DSA refuses unsuitable contexts and leaves no partial signature", "statement": "A context string above 255 bytes, a hash function below the security category of the set or without an identifier, or a failing RNG makes signing return a negative code with the signature bytes all zero, and makes verification return a negative code; a signature of another set than the key's is refused with -EINVAL. Every other context is accepted.", "quantifier": "for every context, message, key and old content of the signature", "why_tests_cant": "The failure is looked at by return code only in tests, not by what is left in memory.", "anchors": ["slh-dsa/src/sphincs_sign.c: lc_sphincs_sign_ctx, lc_sphincs_verify_ctx", "internal/src/signature_domain_separation.c", "slh-dsa/src/sphincs_api.c"]}
{"id": "C73", "title": "The SLH-DSA streaming interface is HashSLH-DSA of the whole message", "statement": "init, any updates and final sign (verify) what the one-shot function signs (verifies) for the digest of the concatenated message under the context's hash function, as 10.2.2 of FIPS 205 defines the digest; a signature streamed with one cut verifies with any other.", "quantifier": "for the six parameter sets, every accepted hash function, every cut of every message", "why_tests_cant": "Tests use one hash function per set and one cut.", "anchors": ["slh-dsa/src/sphincs_sign.c: lc_sphincs_sign_init, sign_update, sign_final, verify_init, verify_update, verify_final"]}
{"id": "C74", "title": "Exported SLH-DSA keys and signatures load again as what they were", "statement": "For every public key, secret key and signature object, loading the bytes returned by the ptr function yields an object with the same parameter set and bytes.", "quantifier": "for every object of the six parameter sets and every target object", "why_tests_cant": "Tests load only the sets of the vectors, and set the type by hand afterwards.", "anchors": ["slh-dsa/src/sphincs_api.c: lc_sphincs_sk_load, lc_sphincs_pk_load, lc_sphincs_sig_load, lc_sphincs_sk_ptr, lc_sphincs_pk_ptr, lc_sphincs_sig_ptr, lc_sphincs_pk_set_keytype_fast"]}
{"id": "C75", "title": "lc_sphincs_keypair_from_seed fails without touching its objects", "statement": "The function is not supported: it returns a negative code and leaves both key objects as they were.", "quantifier": "for all objects, seeds and types", "why_tests_cant": "Tests do not call it.", "anchors": ["slh-dsa/src/sphincs_api.c: lc_sphincs_keypair_from_seed", "slh-dsa/src/sphincs_sign.c: lc_sphincs_keypair_from_seed"]}
{"id": "C76", "title": "An SLH-DSA context can be used again after streaming", "statement": "After a successful init, update, final sequence the context acts as before the sequence: a one-shot signature with it equals the one made with the original context.", "quantifier": "for every context, message and key", "why_tests_cant": "Tests use a context once.", "anchors": ["slh-dsa/src/sphincs_sign.c: lc_sphincs_sign_init, lc_sphincs_sign_final"]}
{"id": "C77", "title": "The SLH-DSA pairwise consistency test passes for every generated key pair", "statement": "lc_sphincs_pct of a pair from lc_sphincs_keypair returns 0 when lc_seeded_rng works and a negative code when it fails.", "quantifier": "for the six parameter sets, every key and every output of the RNG", "why_tests_cant": "All keys cannot be tried.", "anchors": ["slh-dsa/src/sphincs_pct.c: lc_sphincs_pct"]}
{"id": "C78", "title": "Key identifiers are built and compared as byte strings", "statement": "asymmetric_key_generate_id yields the concatenation of its two parts or refuses when it does not fit; asymmetric_key_id_same holds for two identifiers exactly when their bytes agree; the identifier of a certificate determines its serial number and issuer.", "quantifier": "for all parts and all pairs of identifiers", "why_tests_cant": "Tests use a handful of certificates whose identifiers all have the same length.", "anchors": ["asn1/src/asymmetric_type.c: asymmetric_key_generate_id, asymmetric_key_id_same, asymmetric_key_id_partial"]}
{"id": "C79", "title": "A certificate is marked self-signed exactly when its own key signed it", "statement": "x509_check_for_self_signed marks a certificate self-signed only if subject equals issuer and its own key verifies its signature; a certificate whose authority key identifier names another key is parsed and left unmarked.", "quantifier": "for all certificates and every signature scheme", "why_tests_cant": "Tests hold only well-formed certificates of one CA.", "anchors": ["asn1/src/x509_public_key.c: x509_check_for_self_signed"]}
{"id": "C80", "title": "lc_pkcs7_verify with a trust store accepts only signers the store vouches for", "statement": "If lc_pkcs7_verify returns 0 with a trust store then some signer info carries a signature verified with the key of a certificate that is an anchor, is signed by an anchor, or is signed by a certificate of the message with keyCertSign which is itself trusted in this sense.", "quantifier": "for every message, certificate set, trust store, signature scheme, hash and clock", "why_tests_cant": "Forged certificate sets cannot be enumerated; tests use matching trust stores.", "anchors": ["asn1/src/pkcs7_verify.c: lc_pkcs7_verify, pkcs7_verify_one, pkcs7_verify_sig_chain", "asn1/src/pkcs7_trust.c: pkcs7_find_asymmetric_key"]}
{"id": "C81", "title": "Only certificates certified by the store or self-signed roots enter the trust store", "statement": "lc_pkcs7_trust_store_add adds a certificate that is not a self-signed root only if its signature chain leads to an anchor; on success the certificate is the last member of the list and the earlier members are kept; on failure the list is unchanged.", "quantifier": "for every store, certificate and signature scheme", "why_tests_cant": "Tests add honest certificates once.", "anchors": ["asn1/src/pkcs7_trust.c: lc_pkcs7_trust_store_add", "asn1/src/pkcs7_verify.c: pkcs7_verify_sig_chain"]}
{"id": "C82", "title": "Paths accepted by lc_pkcs7_verify obey the rules of RFC 5280", "statement": "On an accepted path every certificate is within its validity period when a clock is present, every issuer may sign certificates and is a CA, and no path length constraint is exceeded.", "quantifier": "for every message, certificate set, trust store and time", "why_tests_cant": "Tests have paths of length at most two with unlimited CAs.", "anchors": ["asn1/src/pkcs7_verify.c: pkcs7_verify_sig_chain", "asn1/src/x509_policies.c: lc_x509_policy_cert_verify, lc_x509_policy_match_key_usage, lc_x509_policy_is_ca"]}
{"id": "C83", "title": "Certificate chain processing always ends", "statement": "lc_pkcs7_verify and lc_pkcs7_trust_store_add finish with a return code and follow no NULL pointer, however the certificates refer to each other, in at most one step more than there are certificates.", "quantifier": "for all finite certificate sets, including cyclic references and stale flags of earlier calls", "why_tests_cant": "Cyclic or self-referring certificate sets are not part of the tests.", "anchors": ["asn1/src/pkcs7_verify.c: pkcs7_verify_sig_chain, lc_pkcs7_verify", "asn1/src/pkcs7_trust.c: lc_pkcs7_trust_store_add"]}
{"id": "C84", "title": "A PKCS#7 signature covers the content, in every call", "statement": "When the digest step succeeds the signed digest is that of the content, or the messageDigest attribute equals it and the signed digest is that of the attributes; verifying the same parsed message again gives the same answer.", "quantifier": "for all messages, attributes and hash functions", "why_tests_cant": "Tests verify each message once.", "anchors": ["asn1/src/pkcs7_verify.c: pkcs7_digest, lc_pkcs7_verify"]}
{"id": "C85", "title": "X.509 policy functions decide what RFC 5280 says", "statement": "lc_x509_policy_is_ca, is_root_ca and match_key_usage return true exactly for CA certificates, self-signed root CAs, and certificates with all requested usages; lc_x509_policy_time_valid returns true exactly when the time lies between notBefore and notAfter.", "quantifier": "for all certificates, usages and times", "why_tests_cant": "Tests check a few certificates.", "anchors": ["asn1/src/x509_policies.c: lc_x509_policy_is_ca, lc_x509_policy_is_root_ca, lc_x509_policy_match_key_usage, lc_x509_policy_match_akid, lc_x509_policy_time_valid, lc_x509_policy_cert_valid"]}
{"id": "C86", "title": "x509_decode_time reads exactly the calendar times", "statement": "Every time of the years 1970 to 9999 written as RFC 5280 demands is read as the number of seconds since 1970 of the Gregorian calendar; nothing that is not a real calendar time is accepted; the order of times is kept.", "quantifier": "for all byte strings and all calendar times of 1970 to 9999", "why_tests_cant": "Leap years, century rules and out of range fields are only spot-checked.", "anchors": ["asn1/src/x509_cert_parser.c: x509_decode_time, mktime64"]}
{"id": "C87", "title": "Validity periods written by the generator are read back unchanged", "statement": "For all notBefore and notAfter from 1970 to 9999 the generator writes one time element each, which the parser reads as the same times.", "quantifier": "for all pairs of times from the epoch to the year 9999", "why_tests_cant": "Tests write one validity period.", "anchors": ["asn1/src/x509_cert_generator.c: x509_set_uct_time_enc, x509_set_gen_time_enc, x509_note_not_before_enc, x509_note_not_after_enc", "asn1/src/x509_cert_parser.c: x509_decode_time"]}
{"id": "C88", "title": "X.509 extensions are decoded as RFC 5280 defines them", "statement": "Key usage bits, the cA flag, the path length and the criticality recorded for a certificate are those encoded in its extensions, on every host.", "quantifier": "for all lists of extensions", "why_tests_cant": "Tests hold only certificates of one generator and run on one host.", "anchors": ["asn1/src/x509_cert_parser.c: x509_extension_critical, x509_basic_constraints_ca, x509_basic_constraints_pathlen, x509_keyusage, x509_eku, x509_process_extension"]}
{"id": "C89", "title": "The name recorded for a certificate is its common name", "statement": "x509_fabricate_name stores names that fit the buffer; for a name consisting of a common name it stores exactly that or returns an error.", "quantifier": "for all certificates and common names", "why_tests_cant": "Tests use short names at small offsets.", "anchors": ["asn1/src/x509_cert_parser.c: x509_extract_name_segment, x509_fabricate_name"]}
{"id": "C90", "title": "The ASN.1 decoder stays inside the input for every input", "statement": "For every shipped grammar, every byte string and every behaviour of the action functions, asn1_ber_decoder reads only inside the input, the bytecode, its two stacks and the action table, and every (value, vlen) given to an action, with the hdrlen bytes before it, lies inside the input.", "quantifier": "for all byte strings, all 14 grammars in asn1/src, all action functions", "why_tests_cant": "Fuzzing covers a sample of inputs; the safety also depends on the generated bytecode, which nothing checks.", "anchors": ["asn1/src/asn1_decoder.c: asn1_ber_decoder, asn1_find_indefinite_length", "asn1/src/*.asn1.c", "asn1/src/asn1_common.c: asn1_op_lengths"]}
{"id": "C91", "title": "The ASN.1 decoder terminates in linear time", "statement": "asn1_ber_decoder returns after at most 512 * (datalen + 2) operations for every shipped grammar and input, and returns 0 or a negative value.", "quantifier": "for all byte strings, all 14 grammars, all action functions", "why_tests_cant": "Non-termination shows only on inputs nobody thought of (SEQUENCE OF loops over optional elements).", "anchors": ["asn1/src/asn1_decoder.c: asn1_ber_decoder", "asn1/src/*.asn1.c"]}
{"id": "C92", "title": "Actions receive exactly the contents of a DER encoding, in order", "statement": "For the private key, composite, extended key usage, key usage, subject key identifier and basic constraints grammars: decoding the DER encoding of any values succeeds and calls the actions once per element, in order, with the tag and exactly the contents.", "quantifier": "for all values and all numbers of elements up to the size limit", "why_tests_cant": "Tests decode a few fixed files; lengths around 127, 255 and 65535 and many elements are not covered.", "anchors": ["asn1/src/asn1_decoder.c: asn1_ber_decoder", "asn1/src/x509_eku.asn1.c", "asn1/src/x509_basic_constraints.asn1.c", "asn1/src/x509_mldsa_privkey.asn1.c", "asn1/src/x509_slhdsa_privkey.asn1.c", "asn1/src/x509_composite_mldsa_privkey.asn1.c", "asn1/src/x509_keyusage.asn1.c", "asn1/src/x509_skid.asn1.c"]}
{"id": "C93", "title": "Only one complete DER encoding is accepted", "statement": "If asn1_ber_decoder accepts an input, the whole input is one DER encoding: right tag including the constructed bit, minimal definite lengths, no bytes after the end.", "quantifier": "for all byte strings", "why_tests_cant": "Malleable encodings are not in the test data; the expected result of the decoder on them is never asked.", "anchors": ["asn1/src/asn1_decoder.c: asn1_ber_decoder"]}
{"id": "C94", "title": "Elements the grammar requires are required, and what it allows is accepted", "statement": "A certificate is decoded only if both times of the Validity are present, a SignedData only if the signerInfos are present; a certificate with an empty subject (RFC 5280 4.1.2.6) is decoded.", "quantifier": "for all byte strings", "why_tests_cant": "Truncated structures with consistent lengths are not in the test data.", "anchors": ["asn1/src/asn1_decoder.c: asn1_ber_decoder", "asn1/src/x509.asn1.c", "asn1/src/pkcs7.asn1.c"]}
{"id": "C95", "title": "Object identifiers are recognised exactly", "statement": "look_up_OID, for any byte string, never reads outside its tables and returns number o exactly when the string is the X.690 encoding of the arcs of the registered identifier o, and OID__NR exactly when it is the encoding of none; OID_to_data gives that encoding back; parse_OID accepts exactly tag 6, the right length and a non-empty rest, and looks up the rest.", "quantifier": "for all byte strings and all 124 registered identifiers", "why_tests_cant": "The search is by a hash and a tail comparison in a generated table; only the identifiers of the test certificates are ever looked up, and no test looks up near misses.", "anchors": ["asn1/src/oid_registry.c: look_up_OID, parse_OID, OID_to_data", "asn1/src/oid_registry_data.c", "asn1/api/lc_asn1.h: enum OID"]}
{"id": "C96", "title": "Object identifiers are printed in dotted notation", "statement": "sprint_oid prints the dotted decimal notation of the arcs of an encoded object identifier, returns its length, and when the buffer is too small returns -ENOBUFS leaving a terminated prefix; sprint_OID does so for every registered number.", "quantifier": "for all object identifiers and all buffer sizes", "why_tests_cant": "Large first arcs and arcs beyond 64 bits are not in the test data.", "anchors": ["asn1/src/oid_registry.c: sprint_oid, sprint_OID"]}
{"id": "C97", "title": "Signature and digest algorithms are identified consistently and weak digests are refused", "statement": "For every ML-DSA, SLH-DSA and composite signature algorithm the object identifier of the standard, the internal number and the name map to each other; nothing else maps to these algorithms; a digest is allowed with a signature algorithm exactly when its collision resistance reaches the level of the algorithm; verification uses the routine of the key's algorithm and only when the signature names the same algorithm.", "quantifier": "for all object identifiers, algorithm numbers, names and digests", "why_tests_cant": "The tables have 25 rows in several lists kept by hand; tests exercise the supported algorithms with one digest each.", "anchors": ["asn1/src/x509_algorithm_mapper.c", "asn1/src/public_key.c: public_key_verify_signature", "asn1/src/x509_cert_parser_get_data.c: lc_x509_cert_oid_to_eku"]}
{"id": "C98", "title": "The ASN.1 encoder primitives write DER", "statement": "asn1_encode_length writes the X.690 definite form with the fewest octets for every length below 2^24, or returns -EINVAL and accounts for nothing; asn1_encode_length_size gives the number of octets it needs; asn1_encode_integer writes the DER INTEGER of every non-negative value and charges the caller's space with what it wrote; asn1_encode_oid writes the DER OBJECT IDENTIFIER of the arcs.", "quantifier": "for all lengths, values, arcs and sizes of the space available", "why_tests_cant": "Tests encode a few small values into ample space.", "anchors": ["asn1/src/asn1_encoder_helper.c: asn1_encode_length, asn1_encode_integer, asn1_encode_oid"]}
{"id": "C99", "title": "The ASN.1 encoder is memory safe and writes DER for every grammar and every set of callbacks", "statement": "For each grammar the library encodes with and whatever the callbacks do within their contract, asn1_ber_encoder and asn1_ber_encoder_small stay within their tables, stacks and buffers; they fail only with -EINVAL, -EOVERFLOW or the error of a callback; on success the caller's buffer holds a sequence of DER values that fits, whose primitive values are exactly those the callbacks delivered, in order and with their tags; and the run ends.", "quantifier": "for all grammars, callbacks, contexts and buffer sizes, at every point of the run", "why_tests_cant": "The encoder interprets a byte code shared with the decoder; tests run a few certificates through it. A level or jump-stack overflow needs a particular nesting.", "anchors": ["asn1/src/asn1_encoder_impl.h: asn1_ber_encoder_ws", "asn1/src/asn1_encoder.c: asn1_ber_encoder", "asn1/src/asn1_encoder_small.c: asn1_ber_encoder_small"]}
{"id": "C100", "title": "Private keys survive being written to and read from their DER container", "statement": "Encoding a non-empty ML-DSA, SLH-DSA or composite private key gives SEQUENCE { BIT STRING ... } with no unused bits (ML-DSA before Ed25519) if that fits both the caller's buffer and the encoder's, and an error otherwise; decoding what was written hands the load functions exactly the key.", "quantifier": "for all keys and buffer sizes", "why_tests_cant": "Tests write a key into a large buffer and do not compare what is read back for every type.", "anchors": ["asn1/src/public_key_dilithium.c: private_key_encode_dilithium, x509_mldsa_private_key", "asn1/src/public_key_sphincs.c: private_key_encode_sphincs", "asn1/src/public_key_dilithium_ed25519.c: private_key_encode_dilithium_ed25519", "asn1/src/x509_cert_generator.c: x509_set_bit_string"]}
{"id": "C101", "title": "Generated certificates carry well-formed names", "statement": "For every combination of name components the subject and issuer written by the generator are a DER Name holding each given component exactly once with its attribute type and a value of the string type X.520 and RFC 5280 require; so does a directory name in a subject alternative name.", "quantifier": "for all names", "why_tests_cant": "Tests compare the generated certificate with what this library's own parser makes of it, and that ignores the tags of the values.", "anchors": ["asn1/src/x509_cert_generator.c: x509_name_OID_enc, x509_name_segment_enc, x509_attribute_value_continue_enc, x509_san_OID_enc", "asn1/src/asn1_encoder_impl.h: asn1_ber_encoder_ws"]}
{"id": "C102", "title": "Generated certificates carry well-formed extensions", "statement": "For every setting of key usage, extended key usage, basic constraints and key identifier the generator writes each extension once (RFC 5280 4.2), in DER, with all the settings, and the parser reads the same settings back.", "quantifier": "for all settings of the extension fields of a certificate", "why_tests_cant": "Tests generate single settings and read them back with the same library, and clear the present flags by hand first.", "anchors": ["asn1/src/x509_cert_generator.c: x509_extension_OID_enc, x509_extension_continue_enc, x509_extension_critical_enc, x509_process_extension_enc, x509_eku_enc, x509_keyusage_enc, x509_basic_constraints_ca_enc", "asn1/api/lc_x509_common.h: LC_KEY_EKU_MASK"]}
{"id": "C103", "title": "X25519 is the function of RFC 7748 and refuses points of small order", "statement": "lc_x25519_ss returns -EINVAL for a null pointer; refuses with an error, leaving the caller's buffer as it was, exactly the public values whose u coordinate modulo p is one of the five of order dividing 8 (in every encoding, canonical or not, top bit set or not); and for every other public value and every secret key stores the X25519 function of RFC 7748 section 5.", "quantifier": "for all 32-byte secret keys and public values", "why_tests_cant": "Limb overflows, wrong carries and a non-canonical result show up only for rare field elements; the self test runs one vector.", "anchors": ["curve25519/src/x25519_scalarmult_c.c: has_small_order, crypto_scalarmult_curve25519_c", "curve25519/src/x25519.c: lc_x25519_ss", "curve25519/src/ed25519_ref10_fe_51.h: fe25519_mul, fe25519_sq, fe25519_sub, fe25519_cswap, fe25519_mul32", "curve25519/src/fe_51/fe.h: fe25519_frombytes, fe25519_reduce, fe25519_tobytes", "curve25519/src/ed25519_ref10.c: fe25519_invert"]}
{"id": "C104", "title": "Arithmetic modulo the Ed25519 group order is exact and its canonicity tests are exact", "statement": "sc25519_reduce maps every 64-byte string, and sc25519_muladd and sc25519_mul every choice of 32-byte strings (reduced or not), to the 32-byte encoding of the value modulo the group order, the least residue, with no signed 64-bit overflow at any step; sc25519_is_canonical answers 1 exactly for encodings below the group order and ge25519_is_canonical exactly for those whose y coordinate is below p.", "quantifier": "for all byte strings of the required length", "why_tests_cant": "The carry chains go wrong, or overflow, only for extreme limbs; a non-reduced result shows for one value in 2^128.", "anchors": ["curve25519/src/ed25519_ref10.c: sc25519_reduce, sc25519_muladd, sc25519_mul, sc25519_is_canonical, ge25519_is_canonical"]}
{"id": "C105", "title": "Ed25519 signs as RFC 8032 says, accepts its own signatures, and refuses malleable or degenerate ones", "statement": "Given point functions that implement the curve group, lc_ed25519_keypair and lc_ed25519(ph)_sign without a random number generator produce exactly the key and signature of RFC 8032 5.1.5 and 5.1.6; with one, S is still below the group order; every such signature is accepted unless the nonce is 0 modulo the order; lc_ed25519(ph)_verify answers 0, -EINVAL or -EBADMSG, -EINVAL exactly if S is not below the order, the key is not canonical, or a point does not decode or has small order, and otherwise 0 exactly if the small-order test holds for R - [S]B + [k]A.", "quantifier": "for all seeds, messages, keys and 64-byte signatures, with and without pre-hashing", "why_tests_cant": "A test cannot show that no other encoding of S is accepted, nor that clamped keys never have small order.", "anchors": ["curve25519/src/ed25519.c: lc_ed25519_keypair, lc_ed25519_sign_internal, lc_ed25519_verify_internal, lc_ed25519_dom2"]}
{"id": "C106", "title": "The small-order test of Ed25519 points depends on the point only and finds the points of order dividing 8", "statement": "ge25519_has_small_order gives the same answer for all projective representations of a point; on a decoded point it answers 1 only if the point has order dividing 8; it recognises the neutral element in every representation.", "quantifier": "for all points and representations", "why_tests_cant": "Test signatures leave the neutral element for the final comparison, which every variant of the test recognises.", "anchors": ["curve25519/src/ed25519_ref10.c: ge25519_has_small_order", "curve25519/src/ed25519.c: lc_ed25519_verify_internal"]}
{"id": "C107", "title": "Running out of memory is survived and reported by a negative number", "statement": "Every allocating call (lc_alloc_aligned, lc_alloc_aligned_secure, the context and random-number-generator allocators, the ASN.1 encoder and lc_pkcs7_set_signer), whatever posix_memalign, mlock, memfd_secret, ftruncate and mmap answer, causes no undefined behaviour and either returns 0 with a block of the wanted size that lc_free takes back, leaving memory as before, or a negative error number with nothing allocated; a missing result pointer is refused with -EINVAL.", "quantifier": "for all sizes, memory states and system call answers", "why_tests_cant": "Tests run with memory to spare; the failing branches are never taken.", "anchors": ["internal/src/memory_support_linux.c: alloc_aligned_secure_internal, lc_alloc_aligned, lc_alloc_aligned_secure, lc_free", "internal/api/ret_checkers.h: CKINT", "asn1/src/asn1_encoder.c: asn1_ber_encoder", "asn1/src/pkcs7_generator_set_data.c: lc_pkcs7_set_signer", "drng/src: *_alloc"]}
{"id": "C108", "title": "Ed25519 point decoding accepts exactly the encodings of RFC 8032 5.1.3 and yields that point", "statement": "ge25519_frombytes answers 0 exactly for the 32-byte strings whose low 255 bits are a y below p such that some x with the parity given by the top bit makes (x, y) a point of the curve, and yields that x and y; ge25519_frombytes_negate_vartime accepts the same strings and yields (-x, y).", "quantifier": "for all 32-byte strings", "why_tests_cant": "Half of all strings decode; a test cannot show that the square root is found whenever there is one, and the strings accepted in excess are 1 in 2^250.", "anchors": ["curve25519/src/ed25519_ref10.c: ge25519_frombytes, ge25519_frombytes_negate_vartime, fe25519_pow22523"]}
{"id": "C109", "title": "Ed25519 point addition, subtraction and doubling are right for all points, without exception", "statement": "For all points of the curve and all their extended representations, ge25519_p3_add, ge25519_p3_sub, ge25519_sub_cached and ge25519_p3_dbl (with ge25519_p1p1_to_p3) yield a valid extended representation of the sum, difference and double of RFC 8032 5.1.4, including equal, opposite and neutral points; the denominators of the addition law are never 0 and the result is on the curve.", "quantifier": "for all pairs of curve points and all representations", "why_tests_cant": "An exceptional pair, if there were one, would be met with probability about 2^-250.", "anchors": ["curve25519/src/ed25519_ref10.c: ge25519_add_cached, ge25519_sub_cached, ge25519_p2_dbl, ge25519_p3_dbl, ge25519_p1p1_to_p3, ge25519_p3_to_cached, ge25519_p3_add, ge25519_p3_sub, ge25519_p3_neg"]}
{"id": "C110", "title": "Additions with table entries, repeated doubling and clearing the cofactor are right for all points", "statement": "For all curve points and representations: ge25519_add_precomp and ge25519_sub_precomp yield the sum and difference with a table entry (y+x, y-x, 2dxy); ge25519_p3_dbladd(r, n, q) yields 2^n r + q for every n, as its comment says; ge25519_clear_cofactor yields 8p. All results are valid extended representations of points on the curve.", "quantifier": "for all curve points, representations and numbers of doublings", "why_tests_cant": "Exceptional points cannot be found by sampling, and n is fixed at the call sites.", "anchors": ["curve25519/src/ed25519_ref10.c: ge25519_add_precomp, ge25519_sub_precomp, ge25519_p1p1_to_p2, ge25519_p3_to_p2, ge25519_p3_dbladd, ge25519_clear_cofactor"]}
{"id": "C111", "title": "Ed25519 scalar multiplication computes a times p for all points and scalars", "statement": "For all curve points p, all their extended representations and all 32-byte scalars a, _ge25519_scalarmult yields a valid representation of a times p on the curve. The 64 signed digits are between -8 and 8, have the value of a, and no signed char wraps; the precondition a[31] <= 127 is not needed.", "quantifier": "for all curve points, representations and scalars", "why_tests_cant": "Scalars with extreme digits, and points of small order, are not met by sampling.", "anchors": ["curve25519/src/ed25519_ref10.c: _ge25519_scalarmult, ge25519_scalarmult, ge25519_cmov8_cached, ge25519_cmov_cached, ge25519_cached_0, equal, negative"]}
{"id": "C112", "title": "Ed25519 base point multiplication computes a times B for all scalars, and its table is right", "statement": "All 256 entries of base[32][8] hold (j+1)*256^i*B as the comment says, and ge25519_scalarmult_base yields a valid representation of a times B on the curve for all 32-byte scalars with a[31] <= 127.", "quantifier": "for all scalars below 2^255; for all 256 table entries", "why_tests_cant": "A wrong entry or digit shows only for the scalars that select it.", "anchors": ["curve25519/src/ed25519_ref10.c: ge25519_scalarmult_base, ge25519_cmov8_base, ge25519_cmov8, ge25519_cmov, ge25519_precomp_0", "curve25519/src/fe_51/base.h"]}
