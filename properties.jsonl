{"id": "C01", "title": "verify_16 is exact equality", "statement": "util::verify_16(x, y) never panics and returns true exactly when y has 16 bytes and they equal x.", "quantifier": "all 16-byte arrays x and all byte slices y of any length", "why_tests_cant": "2^128 x values and unbounded y; tests sample a handful", "anchors": ["src/util.rs: verify_16, verify_inner"]}
{"id": "C02", "title": "SHA-2 one-shot digests are FIPS 180-4", "statement": "sha224/sha256/sha384/sha512(message) return the FIPS 180-4 digest of the message, in builds with and without overflow checks.", "quantifier": "all four algorithms, all messages shorter than 2^61 bytes, both build modes", "why_tests_cant": "padding has boundary cases at every residue of the length, and every message is a different computation", "anchors": ["src/sha2.rs: sha224, sha256, sha384, sha512, impl_processor, K256, K512, SHA224..SHA512"]}
{"id": "C03", "title": "SHA-2 streaming equals one-shot", "statement": "Default::default() followed by any sequence of update calls and write_digest gives the FIPS 180-4 digest of the concatenation of the inputs; how the message is split never matters.", "quantifier": "all four algorithms, all finite histories of update calls with total length below 2^61 bytes, both build modes", "why_tests_cant": "the number of ways to split a message over update calls is unbounded", "anchors": ["src/sha2.rs: Processor256/512::update, write_digest, pad"]}
{"id": "C04", "title": "write_digest output contract", "statement": "write_digest panics exactly when output.len() differs from the digest size (for a hash fed fewer than 2^61 bytes); otherwise it overwrites the whole output and the result does not depend on what the buffer held.", "quantifier": "all update histories below 2^61 bytes, all output buffers of all lengths and contents", "why_tests_cant": "all buffer lengths and previous contents", "anchors": ["src/sha2.rs: impl_function! write_digest"]}
{"id": "C05", "title": "SHA-2 behaviour past the length limit", "statement": "Once 2^61 or more bytes (but fewer than 2^64) have been hashed, a build with overflow checks panics in write_digest, while a build without them returns the Merkle-Damgard hash of the message padded with the bit length reduced modulo 2^64.", "quantifier": "all update histories with total length in [2^61, 2^64), both build modes", "why_tests_cant": "no test can hash 2 exabytes", "anchors": ["src/sha2.rs: Processor::len, pad"]}
{"id": "C06", "title": "HMAC tags are RFC 2104", "statement": "Hmac::<H>::new(key), any sequence of update calls, then tag() gives HMAC-H(key, concatenated message) as in RFC 2104, for keys shorter than, equal to and longer than the block size; the hmac_sha* wrappers give the same value.", "quantifier": "all four hash functions, all keys and all update histories (below the hash length limit), both build modes", "why_tests_cant": "unbounded keys, messages and splits", "anchors": ["src/hmac.rs: Hmac::new, update, tag, write_tag, keyed_hash_function, hmac_sha224..512"]}
{"id": "C07", "title": "HMAC verification is exact", "statement": "hmac::verify::<H>(key, message, tag) returns true exactly when tag is byte for byte the HMAC of the message (so any truncated, extended or altered tag is rejected) and never panics.", "quantifier": "all keys, messages (below the length limit) and candidate tags of any length", "why_tests_cant": "the repo has a TODO for negative tests; the set of wrong tags is unbounded", "anchors": ["src/hmac.rs: verify", "src/util.rs: verify_inner"]}
{"id": "C08", "title": "HMAC key equivalences", "statement": "A key longer than the block size gives the same tags as its digest, and appending zero bytes to a short key (up to the block size) does not change any tag.", "quantifier": "all keys, messages and numbers of appended zeros up to the block size", "why_tests_cant": "unbounded keys and messages", "anchors": ["src/hmac.rs: Hmac::new, keyed_hash_function"]}
{"id": "C09", "title": "HKDF extract", "statement": "hkdf::extract::<H>(salt, ikm, prk) panics exactly when prk.len() differs from the digest size and otherwise sets prk to HMAC-H(salt, ikm); an empty salt behaves like DigestSize zero bytes.", "quantifier": "all salts, ikms and prk buffers, all four hash functions", "why_tests_cant": "unbounded inputs", "anchors": ["src/hkdf.rs: extract"]}
{"id": "C10", "title": "HKDF expand is RFC 5869", "statement": "In a build without overflow checks expand::<H>(prk, info, okm) fills okm with the first okm.len() bytes of RFC 5869's T(1) || T(2) || ..., for every okm length up to 255 digests, and panics exactly when prk is shorter than a digest or okm longer than 255 digests.", "quantifier": "all prk, info, all okm lengths, all four hash functions", "why_tests_cant": "255*64+1 lengths times unbounded prk and info", "anchors": ["src/hkdf.rs: expand"]}
{"id": "C11", "title": "HKDF expand documented length limit under overflow checks", "statement": "expand's documentation promises that it panics only if prk is too short or okm is longer than 255 digests, also in a build with overflow checks.", "quantifier": "all prk, info, okm lengths, in a build with overflow checks", "why_tests_cant": "needs the 254/255-block boundary; tests use at most three blocks", "anchors": ["src/hkdf.rs: expand (the (1..) u8 counter)"]}
{"id": "C12", "title": "HKDF output is prefix consistent", "statement": "Expanding to a shorter okm gives a prefix of expanding to a longer one with the same prk and info.", "quantifier": "all prk, info and pairs of lengths within the limit", "why_tests_cant": "pairs of unbounded inputs", "anchors": ["src/hkdf.rs: expand"]}
{"id": "C13", "title": "ChaCha20 keystream is RFC 8439", "statement": "The bytes yielded by chacha20::Stream::new(key, nonce) are, in order, the RFC 8439 keystream starting at block counter 0, for the first 2^38 bytes.", "quantifier": "all 32-byte keys, 12-byte nonces and stream positions below 2^38", "why_tests_cant": "2^352 keys/nonces and 2^38 positions", "anchors": ["src/chacha20.rs: Stream::next, ChaCha20::block"]}
{"id": "C14", "title": "ChaCha20 stream histories", "statement": "Any interleaving of next, encrypt and decrypt calls on one Stream consumes the keystream in order without gaps or repeats: each call XORs its input with exactly the next input.len() keystream bytes.", "quantifier": "all finite sequences of next/encrypt/decrypt calls consuming at most 2^38 bytes", "why_tests_cant": "unbounded histories and chunk sizes crossing block boundaries anywhere", "anchors": ["src/chacha20.rs: Stream::process, next"]}
{"id": "C15", "title": "ChaCha20 stream round trip", "statement": "Decrypting with a fresh Stream for the same key and nonce what a Stream encrypted, with the message split differently on the two sides, recovers the message; encrypt and decrypt panic exactly when input and output lengths differ, and do not depend on the old output contents.", "quantifier": "all keys, nonces, messages up to 2^38 bytes and splits on both sides", "why_tests_cant": "unbounded messages and splits", "anchors": ["src/chacha20.rs: Stream::encrypt, decrypt, process"]}
{"id": "C16", "title": "ChaCha20 stream past 256 GB", "statement": "Asking for the byte after the first 2^38 bytes panics in a build with overflow checks and restarts the keystream at block 0 in a build without them.", "quantifier": "all keys and nonces, every history that consumed exactly 2^38 bytes", "why_tests_cant": "needs 256 GB of keystream", "anchors": ["src/chacha20.rs: Stream::next (counter += 1)"]}
{"id": "C17", "title": "ChaCha20 and AEAD constructor panics", "statement": "Stream::new panics exactly when the key is not 32 bytes or the nonce is not 12 bytes; ChaCha20Poly1305::new panics exactly when the key is not 32 bytes.", "quantifier": "all keys and nonces of any length", "why_tests_cant": "unbounded lengths", "anchors": ["src/chacha20.rs: ChaCha20::new", "src/poly1305.rs: ChaCha20Poly1305::new"]}
{"id": "C18", "title": "ChaCha20-Poly1305 round trip", "statement": "decrypt of the ciphertext and tag produced by encrypt with the same nonce and data returns true and recovers the message, whatever the two output buffers held before.", "quantifier": "all keys, nonces, data, messages up to 2^38-192 bytes (any length without overflow checks) and buffers", "why_tests_cant": "unbounded inputs", "anchors": ["src/poly1305.rs: encrypt, decrypt"]}
{"id": "C19", "title": "ChaCha20-Poly1305 decrypt accepts exactly the tag encrypt produces", "statement": "decrypt returns true exactly when the given tag is the 16-byte tag encrypt would output for the decrypted message; when it returns false the output buffer is unchanged.", "quantifier": "all keys, nonces, data, ciphertexts, tags of any length and output buffers", "why_tests_cant": "negative tests are a TODO in the repo; the space of bad tags and buffers is unbounded", "anchors": ["src/poly1305.rs: decrypt", "src/util.rs: verify_16"]}
{"id": "C20", "title": "ChaCha20-Poly1305 ciphertext is RFC 8439", "statement": "The ciphertext is the message XOR the RFC 8439 keystream from block counter 1, for every message of at most 2^38-192 bytes (2^38-64 without overflow checks).", "quantifier": "all keys, nonces, messages", "why_tests_cant": "unbounded inputs", "anchors": ["src/poly1305.rs: ChaCha20Poly1305::process"]}
{"id": "C21", "title": "ChaCha20-Poly1305 tag is RFC 8439", "statement": "The tag returned by encrypt is the RFC 8439 AEAD tag: Poly1305 under the one-time key (keystream block 0) of the padded data, padded ciphertext and lengths.", "quantifier": "all keys, nonces, data and messages", "why_tests_cant": "the failing inputs have probability 2^-127 for random testing but can be constructed", "anchors": ["src/poly1305.rs: PolyFunction::freeze, add, write_value, squeeze"]}
{"id": "C22", "title": "Poly1305 arithmetic never overflows", "statement": "Computing a tag never panics from integer overflow, and builds with and without overflow checks return the same tag.", "quantifier": "all keys, data and ciphertexts below 2^64 bytes", "why_tests_cant": "worst-case limb values are not reached by random tests", "anchors": ["src/poly1305.rs: mulmod, squeeze, add, freeze"]}
{"id": "C23", "title": "ChaCha20-Poly1305 long messages", "statement": "encrypt never encrypts message bytes with keystream that is also used for another part of the message or for the one-time Poly1305 key, whatever the message length.", "quantifier": "all message lengths, both build modes", "why_tests_cant": "needs messages beyond 256 GB", "anchors": ["src/poly1305.rs: process (the (1..) u32 counter)"]}
{"id": "C24", "title": "ChaCha20-Poly1305 panics", "statement": "encrypt and decrypt panic exactly when input and output lengths differ or the nonce is not 12 bytes (for messages below the counter limit).", "quantifier": "all argument lengths", "why_tests_cant": "unbounded lengths", "anchors": ["src/poly1305.rs: encrypt, decrypt"]}
{"id": "C25", "title": "AES is FIPS 197", "statement": "Aes128/192/256::new(key).permute(block) is the FIPS 197 cipher of the block under the key, including the key schedule.", "quantifier": "all keys of the right length and all 16-byte blocks, three key sizes", "why_tests_cant": "2^128 blocks times 2^256 keys", "anchors": ["src/aes.rs: impl_cipher, key_expansion, permute, s_box, shift_rows, mix_columns"]}
{"id": "C26", "title": "AES S-box is field inversion", "statement": "The composite-field S-box used by AES equals the FIPS 197 affine map of the inverse in GF(2^8) modulo x^8+x^4+x^3+x+1, at every byte.", "quantifier": "all bytes", "why_tests_cant": "finite, but the repo tests it only through ciphers", "anchors": ["src/aes.rs: s_box, g256_inv, g16_inv, g4_mul"]}
{"id": "C27", "title": "AES permute is a permutation", "statement": "For every key, permute is a bijection on 16-byte blocks.", "quantifier": "all keys, all pairs of blocks", "why_tests_cant": "2^128 blocks per key", "anchors": ["src/aes.rs: BlockCipher::permute"]}
{"id": "C28", "title": "AES constructor panics", "statement": "Aes128/192/256::new panics exactly when the key is not 16/24/32 bytes long; permute never panics.", "quantifier": "all key lengths", "why_tests_cant": "unbounded lengths", "anchors": ["src/aes.rs: key_expansion"]}
{"id": "C29", "title": "GHASH is evaluation in GF(2^128)", "statement": "The GCM hash of (data, ciphertext) is the polynomial with the zero-padded blocks and the length block as coefficients evaluated at the hash key in GF(2^128) with the GCM bit order.", "quantifier": "all hash keys, data and ciphertexts below 2^61 bytes", "why_tests_cant": "2^128 keys and unbounded inputs", "anchors": ["src/ghash.rs: ghash, PolyFunction::process"]}
{"id": "C30", "title": "AES-GCM is SP 800-38D", "statement": "Gcm::<E>::encrypt outputs the SP 800-38D GCM ciphertext and 16-byte tag for a 96-bit nonce, for any block cipher E, and for AES in particular.", "quantifier": "all keys, nonces, data, messages within the documented limits (see C34 for builds with overflow checks)", "why_tests_cant": "unbounded inputs", "anchors": ["src/gcm.rs: encrypt, process, tag"]}
{"id": "C31", "title": "GCM round trip", "statement": "Gcm decrypt of what encrypt produced with the same nonce and data returns true and recovers the message whatever the output buffers held.", "quantifier": "all block ciphers, keys, nonces, data, messages within limits", "why_tests_cant": "unbounded inputs", "anchors": ["src/gcm.rs: encrypt, decrypt"]}
{"id": "C32", "title": "GCM decrypt accepts exactly the tag encrypt produces", "statement": "decrypt returns true exactly when the tag is the 16-byte tag of (data, ciphertext) under the nonce; when it returns false the output buffer is unchanged.", "quantifier": "all ciphertexts, data, tags of any length, output buffers", "why_tests_cant": "negative tests are a TODO in the repo", "anchors": ["src/gcm.rs: decrypt"]}
{"id": "C33", "title": "GCM documented panics", "statement": "encrypt and decrypt panic exactly when input and output lengths differ, the nonce is not 12 bytes, the message is not shorter than 2^36-32 bytes or the data is not shorter than 2^61 bytes (build without overflow checks).", "quantifier": "all argument lengths", "why_tests_cant": "needs 64 GB messages", "anchors": ["src/gcm.rs: check_bounds"]}
{"id": "C34", "title": "GCM documented message limit under overflow checks", "statement": "In a build with overflow checks too, encrypt does not panic for any message shorter than 2^36-32 bytes.", "quantifier": "all message lengths", "why_tests_cant": "needs 64 GB messages", "anchors": ["src/gcm.rs: process (the (2..) u32 counter)"]}
{"id": "C35", "title": "GCM counter blocks never repeat", "statement": "Within one message no two 16-byte chunks are encrypted with the same counter block, and none uses the counter block that masks the tag or the zero block that makes the hash key.", "quantifier": "all messages within the limits and all nonces", "why_tests_cant": "needs messages of up to 2^32 blocks", "anchors": ["src/gcm.rs: process, block, tag"]}
{"id": "C36", "title": "X25519 is RFC 7748", "statement": "curve25519::dh(public_key, secret_key) equals the RFC 7748 X25519 function of the clamped scalar and the masked u-coordinate, for non-canonical u as well.", "quantifier": "all 32-byte keys", "why_tests_cant": "2^512 inputs; carries of the 10-limb arithmetic fail only on rare values", "anchors": ["src/curve25519.rs: dh, scalarmult, Fe"]}
{"id": "C37", "title": "X25519 public keys", "statement": "curve25519::gen_pk(sk) equals dh with the base point 9.", "quantifier": "all 32-byte secret keys", "why_tests_cant": "2^256 inputs", "anchors": ["src/curve25519.rs: gen_pk"]}
{"id": "C38", "title": "X25519 key agreement", "statement": "dh(gen_pk(b), a) = dh(gen_pk(a), b).", "quantifier": "all pairs of 32-byte secret keys", "why_tests_cant": "2^512 pairs; the reason is the group law", "anchors": ["src/curve25519.rs: dh, gen_pk"]}
{"id": "C39", "title": "X25519 ignored bits", "statement": "dh does not depend on bits 0,1,2,254,255 of the secret key or on the top bit of the public key.", "quantifier": "all keys", "why_tests_cant": "2^512 inputs", "anchors": ["src/curve25519.rs: scalarmult, assign_from_bytes"]}
{"id": "C40", "title": "X25519 canonical output", "statement": "The 32 bytes returned by dh and gen_pk are always the little-endian encoding of an integer below 2^255-19.", "quantifier": "all keys", "why_tests_cant": "final reduction is wrong only on values near p", "anchors": ["src/curve25519.rs: write_bytes"]}
{"id": "C41", "title": "Curve25519 arithmetic never overflows", "statement": "gen_pk, dh (X25519) and gen_pk, sign, verify (Ed25519) never panic from integer overflow and give the same result with and without overflow checks.", "quantifier": "all inputs of the right lengths", "why_tests_cant": "worst-case limbs are not reached by tests", "anchors": ["src/curve25519.rs: fe_mul, fe_sq, mul121666", "src/ed25519.rs: assign_twice_square, sc_reduce, sc_muladd, ge_*"]}
{"id": "C42", "title": "Curve25519/Ed25519 panics", "statement": "X25519 gen_pk/dh panic exactly when a key is not 32 bytes; Ed25519 gen_pk and sign panic exactly when the secret key is not 32 bytes, verify exactly when the public key is not 32 bytes (messages below 2^61-64 bytes).", "quantifier": "all argument lengths", "why_tests_cant": "unbounded lengths", "anchors": ["src/curve25519.rs: scalarmult", "src/ed25519.rs: gen_pk, sign, verify"]}
{"id": "C43", "title": "X25519 low-order points", "statement": "dh with a public key of small order (0, 1, -1 or one of the two order-8 u-coordinates modulo p, in any encoding) returns 32 zero bytes for every secret key; it does not panic or reject.", "quantifier": "all secret keys", "why_tests_cant": "2^256 keys", "anchors": ["src/curve25519.rs: dh"]}
{"id": "C44", "title": "Ed25519 scalar reduction", "statement": "The scalar arithmetic used by sign and verify reduces 64-byte integers modulo the group order L to the canonical representative in [0, L), and S = (h*a + r) mod L canonically.", "quantifier": "all 64-byte and 32-byte inputs", "why_tests_cant": "reduction errors need extreme values", "anchors": ["src/ed25519.rs: sc_reduce, sc_muladd"]}
{"id": "C45", "title": "Ed25519 public keys", "statement": "ed25519::gen_pk(sk) is the RFC 8032 encoding of [s]B for the clamped first half s of SHA-512(sk).", "quantifier": "all 32-byte secret keys", "why_tests_cant": "2^256 keys, 256-entry table", "anchors": ["src/ed25519.rs: gen_pk, from_scalarmult_base, select", "src/const_curve25519.rs: BASE"]}
{"id": "C46", "title": "Ed25519 signatures are RFC 8032", "statement": "sign(message, sk) is exactly the RFC 8032 deterministic signature R || S with S < L.", "quantifier": "all messages below 2^61-64 bytes and all secret keys", "why_tests_cant": "unbounded messages", "anchors": ["src/ed25519.rs: sign"]}
{"id": "C47", "title": "Ed25519 sign then verify", "statement": "verify(message, sign(message, sk), gen_pk(sk)) = true.", "quantifier": "all messages below 2^61-64 bytes and all secret keys", "why_tests_cant": "unbounded messages, 2^256 keys; the reason is the group law", "anchors": ["src/ed25519.rs: sign, verify"]}
{"id": "C48", "title": "Ed25519 verification equation", "statement": "verify returns true exactly when the signature has 64 bytes, its top three bits are clear, the public key decodes to a curve point A, and the encoding of [S]B - [h]A equals the first 32 bytes of the signature, h being SHA-512(R || pk || message) mod L.", "quantifier": "all messages, signatures of any length, 32-byte public keys", "why_tests_cant": "unbounded inputs; the sliding-window code has data-dependent paths", "anchors": ["src/ed25519.rs: verify, from_double_scalarmult_vartime, slide, from_bytes_negate_vartime"]}
{"id": "C49", "title": "Ed25519 signatures are not malleable", "statement": "For a given message and public key, a valid signature R || S has S < L, as RFC 8032 requires, so that adding L to S never gives a second valid signature.", "quantifier": "all messages, public keys, signatures", "why_tests_cant": "the failing signatures have to be constructed", "anchors": ["src/ed25519.rs: verify"]}
{"id": "C50", "title": "Ed25519 rejects public keys RFC 8032 rejects", "statement": "verify returns false for public keys that do not decode under RFC 8032 (y >= p, or x = 0 with the sign bit set).", "quantifier": "all 32-byte public keys", "why_tests_cant": "special points", "anchors": ["src/ed25519.rs: from_bytes_negate_vartime"]}
{"id": "C51", "title": "Ed25519 point encoding round trip", "statement": "Decoding a 32-byte string accepts exactly those whose y-coordinate (mod p, top bit dropped) is on the curve, and yields the point whose encoding is the input when the input is canonical.", "quantifier": "all 32-byte strings", "why_tests_cant": "2^256 inputs", "anchors": ["src/ed25519.rs: from_bytes_negate_vartime, to_bytes"]}
{"id": "C52", "title": "X25519 is multiplication on the curve", "statement": "If the public key is the u-coordinate of a point P of Curve25519 (via its Edwards form), dh returns the u-coordinate of [k]P, k being the clamped secret key; gen_pk returns the u-coordinate of [k]B for the standard base point B.", "quantifier": "all curve points P, all 32-byte secret keys", "why_tests_cant": "needs the group law and the correctness of the ladder for every point and scalar", "anchors": ["src/curve25519.rs: dh, gen_pk, scalarmult"]}
{"id": "C53", "title": "Ed25519 malleability is exactly +L", "statement": "Given an accepted signature R||S, another signature with the same R is accepted for the same message and key exactly when its second half is below 2^253 and congruent to S modulo L; hence at most one has S < L and at most two exist.", "quantifier": "all messages, public keys and pairs of signatures, both build kinds", "why_tests_cant": "One S out of 2^256 candidates; tests try a handful.", "anchors": ["src/ed25519.rs: verify", "src/ed25519.rs: double_scalarmult_vartime"]}
{"id": "C54", "title": "Public key collisions", "statement": "Two Ed25519 secret keys give the same public key exactly when the clamped halves of their SHA-512 hashes coincide; two X25519 secret keys give the same public key exactly when their clamped scalars are equal or add up to 8L.", "quantifier": "all pairs of 32-byte secret keys", "why_tests_cant": "Ranges over all pairs of keys; the second kind of X25519 collision is never met by chance.", "anchors": ["src/ed25519.rs: gen_pk", "src/curve25519.rs: gen_pk"]}
{"id": "C55", "title": "X25519 secrets with honest keys are never zero", "statement": "dh(gen_pk(b), a) is never 32 zero bytes; for a public key standing for a curve point P, dh returns zeros exactly when [8]P is the neutral element, whatever the secret key.", "quantifier": "all pairs of secret keys; all curve points and secret keys", "why_tests_cant": "No test can range over all pairs of keys.", "anchors": ["src/curve25519.rs: dh", "src/curve25519.rs: gen_pk"]}
{"id": "C56", "title": "X25519 secrets distinguish honest keys", "statement": "For one secret key, two public keys made by gen_pk give the same shared secret exactly when they are equal; for one honest public key two secret keys give the same shared secret exactly when they have the same public key.", "quantifier": "all triples of secret keys", "why_tests_cant": "Needs injectivity over 2^251 keys.", "anchors": ["src/curve25519.rs: dh", "src/curve25519.rs: gen_pk"]}
{"id": "C57", "title": "Ed25519 signatures bind the message", "statement": "If one signature is accepted for two messages under a public key made by gen_pk, then SHA-512(R||pk||m) and SHA-512(R||pk||m') agree modulo L.", "quantifier": "all messages, signatures and secret keys", "why_tests_cant": "Absence of a second message cannot be tested; the statement reduces it to a hash collision modulo L.", "anchors": ["src/ed25519.rs: verify", "src/ed25519.rs: gen_pk"]}
{"id": "C58", "title": "Ed25519 accepts only what RFC 8032 accepts", "statement": "A signature accepted by verify with S < L and a canonically encoded public key (of any order) also passes the cofactored verification of RFC 8032 section 5.1.7; the converse fails.", "quantifier": "all messages, signatures and canonical public keys, including points of small and mixed order", "why_tests_cant": "Points of mixed order and reduction of the hash modulo L interact; only the order of every curve point settles it.", "anchors": ["src/ed25519.rs: verify", "src/ed25519.rs: sc_reduce"]}
{"id": "C59", "title": "Ed25519 nonces", "statement": "Two signatures by one key share R exactly when SHA-512(prefix||m) and SHA-512(prefix||m') agree modulo L, and in that case the secret scalar satisfies the public linear equation (k-k') s = S-S' modulo L.", "quantifier": "all pairs of messages and all secret keys", "why_tests_cant": "A nonce collision never occurs in tests.", "anchors": ["src/ed25519.rs: sign"]}
{"id": "C60", "title": "AES-GCM forgery bound", "statement": "For two different (associated data, ciphertext) pairs with given tags there is a set of at most max(number of GHASH blocks) 16-byte strings, fixed by those inputs alone, such that for every block cipher, key and nonce under which decrypt accepts both, the encryption of the zero block is in that set. In particular a forgery after seeing one encrypt output succeeds only for such hash keys.", "quantifier": "all block ciphers, keys, nonces, associated data, ciphertexts and tags", "why_tests_cant": "It counts keys: no test can enumerate 2^128 hash keys, and it needs GF(2^128) to be a field.", "anchors": ["src/gcm.rs: GcmAes::encrypt, GcmAes::decrypt", "src/ghash.rs: GHash"]}
{"id": "C61", "title": "ChaCha20-Poly1305 forgery bound", "statement": "For two different (associated data, ciphertext) pairs with given tags there is a set of at most 8712*max(blocks) values, fixed by those inputs alone, that contains the clamped one-time Poly1305 key r of every key and nonce under which decrypt accepts both; the constant is 8 (Bernstein's bound) when both accumulators are at least 2^22+5, where tags follow RFC 8439.", "quantifier": "all keys, nonces, associated data, ciphertexts and tags", "why_tests_cant": "It counts keys, needs primality of 2^130-5, and must account for the implementation's deviating final reduction.", "anchors": ["src/poly1305.rs: encrypt, decrypt, Poly1305"]}
{"id": "C62", "title": "SHA-2 collisions come from the compression function", "statement": "If two different messages have the same digest under one of the four SHA-2 hashes, then while hashing them the compression function is applied to two different (chaining value, block) pairs with equal results; for the truncated SHA-384/SHA-224 the last two results may instead differ but agree on the kept part.", "quantifier": "all pairs of messages shorter than 2^61 bytes, all four hashes, both build modes", "why_tests_cant": "No collision is known, so no test can reach the hypothesis.", "anchors": ["src/sha2.rs: Sha224, Sha256, Sha384, Sha512"]}
{"id": "C63", "title": "HMAC and HKDF collisions come from hash collisions", "statement": "If two different (key, message) pairs with keys of equal length have the same HMAC tag (or two different (prk, info) pairs have HKDF outputs that share the first digest-sized block), then the hash function itself collides on two strings hashed along the way: the two keys, the two inner inputs, or the two outer inputs.", "quantifier": "all keys of equal length, messages, infos, output lengths of at least one digest; all four hashes, both build modes", "why_tests_cant": "No HMAC collision is known, so no test can reach the hypothesis.", "anchors": ["src/hmac.rs: Hmac", "src/hkdf.rs: expand"]}
{"id": "C64", "title": "SHA-512 and SHA-256 are length-extendable", "statement": "From the digest and the length alone of any message, the digest of that message followed by its padding and any chosen suffix can be computed; so hash(secret ++ message) is not a MAC and callers need Hmac.", "quantifier": "all messages and suffixes within the size limit, both hashes, both build modes", "why_tests_cant": "It must hold for every unknown prefix.", "anchors": ["src/sha2.rs: Sha512, Sha256"]}
{"id": "C65", "title": "Reusing a nonce reveals the XOR of the messages", "statement": "Two messages encrypted under the same key and nonce by AES-GCM or ChaCha20-Poly1305 have ciphertexts whose XOR is the XOR of the messages on their common length, and for a fixed key and nonce the ciphertext determines the message.", "quantifier": "all keys, nonces, associated data and messages, both AEADs", "why_tests_cant": "It ranges over all keys and message pairs.", "anchors": ["src/gcm.rs: encrypt", "src/poly1305.rs: encrypt"]}
{"id": "C66", "title": "Ed25519 keys convert to X25519 keys", "statement": "For every Ed25519 secret key, the first 32 bytes of its SHA-512 hash are an X25519 secret key whose public key is the u-coordinate (1+y)/(1-y) of the y-coordinate encoded in the Ed25519 public key, and the division is never by zero.", "quantifier": "all 32-byte secret keys, all build modes", "why_tests_cant": "It must hold for every key; it relates two independent modules.", "anchors": ["src/ed25519.rs: gen_pk", "src/curve25519.rs: gen_pk"]}
{"id": "C67", "title": "X25519 is a group action on every public key", "statement": "Every 32-byte public key, canonical or not, is the u-coordinate of a point of the curve or of its quadratic twist, and the shared secret is the u-coordinate of that point multiplied by the clamped secret key. Applying two secret keys to any public key gives the same result in either order.", "quantifier": "all 32-byte public keys, all secret keys, all build modes", "why_tests_cant": "It ranges over all 2^256 public keys, half of which are on the twist where no test vector looks.", "anchors": ["src/curve25519.rs: dh", "src/curve25519.rs: scalarmult"]}
{"id": "C68", "title": "The shared secret is zero exactly for low-order public keys", "statement": "The shared secret is 32 zero bytes if and only if the public key stands, modulo 2^255-19 and ignoring the top bit, for one of five values (0, 1, -1 and two of order 8), whatever the secret key. An all-zero check therefore rejects exactly those public keys.", "quantifier": "all 32-byte public keys and secret keys, all build modes", "why_tests_cant": "The 'only if' direction excludes a zero result for all other public keys and secret keys.", "anchors": ["src/curve25519.rs: dh"]}
{"id": "C69", "title": "Equivalent public keys do not depend on the secret key", "statement": "If two public keys give the same shared secret with one secret key, they give the same shared secret with every secret key.", "quantifier": "all pairs of 32-byte public keys, all pairs of secret keys", "why_tests_cant": "It quantifies over pairs of keys and all secret keys.", "anchors": ["src/curve25519.rs: dh"]}
{"id": "C70", "title": "Exactly 26 non-RFC public keys are decoded", "statement": "The 32-byte strings that Ed25519 decodes as a point although RFC 8032 rejects them are exactly 26 listed ones; any public key with which verify accepts some signature is an RFC 8032 encoding or one of those 26.", "quantifier": "all 32-byte strings, all messages and signatures, all build modes", "why_tests_cant": "It is a classification of all 2^256 strings.", "anchors": ["src/ed25519.rs: verify", "src/ed25519.rs: GeP3::from_bytes_negate_vartime"]}
{"id": "C71", "title": "Hashing leaves the same trace for all messages of a length", "statement": "The branches taken and array indices used by the SHA-2 functions, one-shot and streaming, depend on the lengths of the inputs only, not on their contents. The same holds of whether the call panics.", "quantifier": "all pairs of calls whose arguments have equal lengths, whether they return or panic; every build mode; any sequence of update calls", "why_tests_cant": "A leak is a difference between two executions; tests compare a few pairs, and the property is about all pairs of secrets.", "anchors": ["src/sha2.rs: sha512, sha384, sha256, sha224, update, write_digest"]}
{"id": "C72", "title": "HMAC leaks only lengths and the verdict", "statement": "The branches and array indices of HMAC (one-shot, streaming) depend only on the lengths of key and message; those of verify on the lengths and the verdict, so that wrong tags are not told apart. The same holds of whether the call panics.", "quantifier": "all pairs of calls whose arguments have equal lengths, whether they return or panic; every build mode", "why_tests_cant": "A leak is a difference between two executions; tests compare a few pairs, and the property is about all pairs of secrets.", "anchors": ["src/hmac.rs: new, update, tag, verify", "src/util.rs: verify_inner"]}
{"id": "C73", "title": "HKDF leaks only lengths", "statement": "The branches and array indices of HKDF extract and expand depend only on the lengths of salt, key material, info and output. The same holds of whether the call panics.", "quantifier": "all pairs of calls whose arguments have equal lengths, whether they return or panic; every build mode", "why_tests_cant": "A leak is a difference between two executions; tests compare a few pairs, and the property is about all pairs of secrets.", "anchors": ["src/hkdf.rs: extract, expand"]}
{"id": "C74", "title": "ChaCha20 streams leak only lengths", "statement": "Over any history of next, encrypt and decrypt calls on a stream, branches and array indices depend only on the sequence of calls and their buffer lengths, not on key, nonce or data. The same holds of whether the call panics.", "quantifier": "all pairs of histories of the same shape, all keys and nonces, every build mode", "why_tests_cant": "A leak is a difference between two executions; tests compare a few pairs, and the property is about all pairs of secrets.", "anchors": ["src/chacha20.rs: Stream"]}
{"id": "C75", "title": "ChaCha20-Poly1305 leaks only lengths and the verdict", "statement": "Branches and array indices of encrypt depend only on lengths; those of decrypt on lengths and on whether the tag is accepted. The same holds of whether the call panics.", "quantifier": "all pairs of calls whose arguments have equal lengths, whether they return or panic; every build mode", "why_tests_cant": "A leak is a difference between two executions; tests compare a few pairs, and the property is about all pairs of secrets.", "anchors": ["src/chacha20.rs: ChaCha20Poly1305", "src/poly1305.rs"]}
{"id": "C76", "title": "AES and AES-GCM leak only lengths and the verdict", "statement": "The AES key schedule and cipher use no secret-dependent table index or branch; GCM encryption leaks only lengths, decryption lengths and the verdict. The same holds of whether the call panics.", "quantifier": "all pairs of calls whose arguments have equal lengths, whether they return or panic; every build mode; all three key sizes", "why_tests_cant": "A leak is a difference between two executions; tests compare a few pairs, and the property is about all pairs of secrets.", "anchors": ["src/aes.rs", "src/ghash.rs", "src/gcm.rs"]}
{"id": "C77", "title": "X25519 leaves the same trace for all keys", "statement": "Branches and array indices of dh and gen_pk are the same for all 32-byte secret and public keys.", "quantifier": "all 32-byte keys, every build mode", "why_tests_cant": "A leak is a difference between two executions; tests compare a few pairs, and the property is about all pairs of secrets.", "anchors": ["src/curve25519.rs: dh, gen_pk, scalarmult"]}
{"id": "C78", "title": "Ed25519 key generation and signing leak only the message length", "statement": "Branches and array indices of gen_pk are the same for all secret keys, and those of sign depend only on the length of the message; in particular the base-point table is read at fixed indices.", "quantifier": "all 32-byte secret keys and all messages of equal length, including the lengths from 2^61-64 bytes on at which sign panics, every build mode", "why_tests_cant": "A leak is a difference between two executions; tests compare a few pairs, and the property is about all pairs of secrets.", "anchors": ["src/ed25519.rs: gen_pk, sign, from_scalarmult_base, select"]}
{"id": "C79", "title": "A ChaCha20 stream after caught panics", "statement": "A user who catches panics and goes on with the same stream sees, whatever the sequence of next, encrypt and decrypt calls and buffer lengths: calls with buffers of different lengths panic, touch nothing and use no keystream; other calls take successive keystream bytes, each used at most once; with overflow checks the call that reaches the end of the keystream (2^38 bytes) leaves the bytes it could still encrypt and panics, and from then on every call panics and leaves its buffer alone.", "quantifier": "all keys, nonces, and histories of calls of any length, including calls that panic; both build modes", "why_tests_cant": "The state after a panic matters only for the following calls; the end of the keystream is 256 GiB away.", "anchors": ["src/chacha20.rs: Stream, next, encrypt, decrypt, process"]}
{"id": "C80", "title": "Decryption never exposes unauthenticated plaintext, at any moment", "statement": "At every moment of a ChaCha20-Poly1305 or GCM decrypt call, also one that panics, the output buffer holds its old contents with a prefix replaced by the message whose encryption is the given ciphertext and tag; if no message encrypts to them, the buffer is never touched.", "quantifier": "all keys, nonces, ciphertexts, data, tags, buffers; all points between two stores; all block ciphers for GCM; both build modes", "why_tests_cant": "A test sees the buffer after the call only, and only for some tags.", "anchors": ["src/poly1305.rs: decrypt, process", "src/gcm.rs: decrypt, process"]}
{"id": "C81", "title": "Encryption writes ciphertext only, and what an overflow panic leaves", "statement": "At every moment of an encrypt call the output buffer holds its old contents with a prefix replaced by ciphertext bytes. With refused arguments it is never touched. When a build with overflow checks panics on a message that is too long, exactly the first 2^38-128 (GCM: 2^36-48) bytes have been replaced.", "quantifier": "all keys, nonces, messages, data, buffers; all points between two stores; all block ciphers for GCM; both build modes", "why_tests_cant": "Crash points are not visible to tests; the overflow needs messages of 64 GiB and more.", "anchors": ["src/poly1305.rs: encrypt, process", "src/gcm.rs: encrypt, process"]}
{"id": "C82", "title": "Buffers of hash, HMAC and HKDF functions at every moment", "statement": "write_digest, write_tag, extract and expand leave the buffer alone when they refuse it. Otherwise write_digest, extract and expand fill it from left to right with the digest, pseudorandom key or key material; write_tag fills it with the inner digest first and then with the tag. The overflow panic of expand in builds with checks comes when exactly 254 blocks have been written.", "quantifier": "the four hash functions, all inputs within the length limits, all buffers, all points between two stores, both build modes", "why_tests_cant": "Crash points and the state after a panic are not visible to tests.", "anchors": ["src/sha2.rs: write_digest", "src/hmac.rs: write_tag", "src/hkdf.rs: extract, expand"]}
{"id": "C83", "title": "Ed25519 public keys of small order", "statement": "Exactly 14 of the 2^256 strings decode to a point of order dividing 8. With any of them, whether verify accepts depends on the message only through the hash k reduced modulo L and then modulo 8, so signatures do not bind the message; with the four strings of the neutral element, enc([S]B), S is accepted for every message and every S below 2^253. gen_pk never returns one of the 14.", "quantifier": "all 32-byte strings, messages below 2^61-64 bytes, signatures, S below 2^253, secret keys; both build modes", "why_tests_cant": "The 14 strings are a vanishing fraction of the keys, and that there are no others, or that gen_pk avoids them, no test can show.", "anchors": ["src/ed25519.rs: verify, gen_pk, from_bytes_negate_vartime"]}
{"id": "C84", "title": "AES-GCM and ChaCha20-Poly1305 do not commit to the key", "statement": "A user cannot conclude from a successful decrypt that the ciphertext was made with this key: for any two keys (even of different block ciphers) that encrypt the zero block differently, any nonces, any associated data and any whole number of leading ciphertext blocks, one more block and one tag exist that decrypt accepts under both keys. ChaCha20-Poly1305 does not promise it either: there are two keys, a nonce, a ciphertext and a tag that decrypt accepts under both keys, with two different messages, in both build modes and for any output buffer.", "quantifier": "all block ciphers, pairs of keys, nonces, associated data, ciphertext prefixes of whole blocks within the length limit; both build modes", "why_tests_cant": "Random ciphertexts are never accepted; the existence of a common one for every pair of keys is an algebraic fact about GHASH.", "anchors": ["src/gcm.rs: decrypt, tag", "src/ghash.rs: ghash", "src/poly1305.rs: ChaCha20Poly1305::decrypt"]}
{"id": "C85", "title": "Overflow checks change no result", "statement": "For every public function and all arguments and states: a build with overflow checks panics or returns exactly what a build without them returns; so a build without them panics only where one with them does.", "quantifier": "all functions of the API, all arguments of any length, all states of the streaming objects", "why_tests_cant": "A test compares the two builds on a few inputs; inputs where the builds differ need gigabytes.", "anchors": ["src/sha2.rs", "src/hmac.rs", "src/hkdf.rs", "src/chacha20.rs", "src/poly1305.rs", "src/gcm.rs", "src/curve25519.rs", "src/ed25519.rs"]}
{"id": "C86", "title": "HMAC and HKDF over a user's own hash function", "statement": "HashFunction is a public trait. For any type whose new/update/write_digest compute some function of the bytes absorbed, with a digest of at most 64 bytes and not longer than the block, Hmac, hmac::verify, hkdf::extract and hkdf::expand compute HMAC and HKDF of RFC 2104/5869 over that function. With a digest longer than the block, only keys longer than the block deviate, in a stated way; with a digest over 64 bytes every tag panics; with an empty digest expand always panics.", "quantifier": "all implementations of HashFunction (with their own length limit), keys, histories of update calls, salts, infos and output lengths; both build modes", "why_tests_cant": "Tests instantiate the trait with the four types of the crate only.", "anchors": ["src/hmac.rs: Hmac, verify, Tag", "src/hkdf.rs: extract, expand", "src/sha2.rs: HashFunction"]}
{"id": "C87", "title": "A caught overflow panic never leads to a wrong digest or tag", "statement": "When update panics on the length overflow of a checked build and the caller catches the panic and goes on using the value, the call that panicked leaves no trace, and any digest or HMAC tag that still comes out is that of all inputs; once an update has panicked no digest comes out. Without overflow checks update never panics.", "quantifier": "all histories of update calls with slices of any length below 2^63, whichever of them panic; all four hash types and HMAC over them", "why_tests_cant": "The states exist only after 2^64 bytes have been hashed.", "anchors": ["src/sha2.rs: update, write_digest, Processor", "src/hmac.rs: Hmac"]}
{"id": "C88", "title": "AES-GCM never uses a keystream block twice", "statement": "Under one AES key, two full blocks of two encrypted messages (or of one message) are masked with the same keystream block exactly when nonce and position agree; so equal plaintext blocks never show as equal ciphertext blocks while nonces are not reused.", "quantifier": "all keys of the three sizes, nonces, data, messages and positions of full blocks; both build modes", "why_tests_cant": "It needs AES to be injective for every key and the counters to differ for every length.", "anchors": ["src/gcm.rs: process, block", "src/aes.rs: permute"]}
{"id": "C89", "title": "What reusing a nonce costs", "statement": "C60 and C61 bound how many values of the authenticator's secret agree with two messages under one nonce. Whoever knows that secret (the encryption of the zero block; the Poly1305 point r) and one message with its ciphertext and tag can have any data and any message that is not longer accepted under that nonce, computed from public values only.", "quantifier": "all block ciphers and keys, nonces, data, messages, and all forged data and messages; both build modes", "why_tests_cant": "It is an algebraic identity over all inputs; a test shows single forgeries.", "anchors": ["src/gcm.rs: decrypt, tag", "src/poly1305.rs: decrypt, tag"]}
{"id": "C90", "title": "Two parties can talk", "statement": "Two parties who exchange public keys of curve25519::gen_pk and run dh, hkdf::extract and hkdf::expand with the same salt and info obtain the same 32-byte key, namely that of RFC 7748 and RFC 5869, without any panic; what one seals with ChaCha20Poly1305 the other opens, and no other tag is accepted. This holds also when the two are built differently.", "quantifier": "all secret keys, salts, infos, nonces, data, messages up to 2^38-192 bytes; the four hash types; both build modes on each side", "why_tests_cant": "The composition must agree for every pair of secrets and every message.", "anchors": ["src/curve25519.rs: gen_pk, dh", "src/hkdf.rs: extract, expand", "src/poly1305.rs: encrypt, decrypt"]}
{"id": "C91", "title": "Any number of forgery attempts", "statement": "An attacker who has seen any set of sealed messages and may submit q sealed messages of at most L blocks, none a copy of one seen, each chosen from the verdicts on the earlier ones, has one accepted only if the authenticator's secret takes one of few values fixed in advance: for GCM the hash key is in a set of at most q*L strings, for ChaCha20-Poly1305 the point r of the nonce is in a set of at most 8712*q*L (nonce, r) pairs, or, for a nonce not seen before, the mask of the tag has the one value that the attempt assigns to the hash key (to r).", "quantifier": "all sets of sealed messages, all adaptive strategies, all q and L, all block ciphers and keys consistent with what was seen; both build modes", "why_tests_cant": "It quantifies over all attackers and all keys; a test tries single forgeries.", "anchors": ["src/gcm.rs: encrypt, decrypt", "src/poly1305.rs: encrypt, decrypt", "src/util.rs: verify_16"]}
{"id": "C92", "title": "An Ed25519 signature proves knowledge of the key", "statement": "For the public key of any secret key: whoever knows the discrete logarithm r of the R of an accepted signature can compute the secret scalar times the challenge, (S - r) mod L; two accepted signatures with the same R and different challenges, however they were produced, give the secret scalar modulo L by an explicit formula; and the scalar modulo L is enough to have every message accepted, with every r.", "quantifier": "all secret keys, messages up to 2^61-65 bytes, signatures (not only those made by sign), r and scalars congruent modulo L; both build modes", "why_tests_cant": "It needs the group law, the prime order of the base point and the arithmetic modulo L for all inputs.", "anchors": ["src/ed25519.rs: gen_pk, verify"]}
{"id": "C93", "title": "GCM with an unknown function hides the messages", "statement": "Let an attacker choose queries adaptively, each a nonce not used before, associated data and two messages of equal length, and let it see the ciphertext and tag (or panic) of the left message each time, or of the right message each time. When the block cipher is an arbitrary function on blocks, there is a bijection on those functions such that what the attacker sees of the left messages under a function is exactly what it sees of the right messages under its image. So with a uniformly random function in place of the cipher the answers carry no information about the messages but their lengths.", "quantifier": "all adaptive attackers, numbers of queries, nonces, data and messages within the limits, and all block functions; both build modes", "why_tests_cant": "It is a statement about all functions on 16-byte blocks and all attackers; no set of runs samples either.", "anchors": ["src/gcm.rs: Gcm::encrypt", "src/aes.rs: BlockCipher"]}
{"id": "C94", "title": "Ed25519 signatures can be simulated", "statement": "For the public key of any secret key: from the public key alone, a challenge and any S below L one computes an R such that (R, S) is accepted for every message having that challenge; every signature made by sign is such a string for its own challenge and S; and for a fixed challenge the nonces modulo L correspond one to one to the values of S. So, given its challenge, a signature with a uniformly chosen nonce reveals nothing about the key beyond the public key.", "quantifier": "all secret keys, messages up to 2^61-65 bytes, challenges, nonces and S below L; both build modes", "why_tests_cant": "It needs the group law and the prime order of the base point for all scalars.", "anchors": ["src/ed25519.rs: gen_pk, sign, verify"]}
{"id": "C95", "title": "ChaCha20-Poly1305 uses its key only through keystream blocks; with unknown blocks it hides the messages and forgeries are rare", "statement": "There is one fixed MAC function such that, for every key, encrypt XORs the message with the key's ChaCha20 blocks 1, 2, ... for the nonce and computes the tag from the first half of block 0, the associated data and the ciphertext alone. With those blocks replaced by an arbitrary function of block number and nonce, an adaptive attacker that never repeats a nonce and names two messages of equal length per query sees the same answers for the left messages under one function as for the right messages under another, and this correspondence is a bijection of functions. Forgeries: when the blocks are drawn uniformly at random, an attacker that sees n encryptions without repeating a nonce and then makes up to m attempts, none a pair it was given, of at most B sixteen-byte blocks each for Poly1305 (the queries too), has one of them accepted with a probability of at most 8712 m B / 2^106; acceptance is what decrypt gives when the blocks are those of a key. The bound also holds when encryptions and attempts come in any order, each chosen from all answers before (an attempt is then no replay if no earlier encryption gave it). Under random blocks the distribution of all the attacker sees is the same for the left and for the right messages; hence for a uniformly random key the advantage, and the chance of a forgery beyond the bound, are at most what random keys and random blocks differ by in the same experiments. An adversary that names two messages of equal length per encryption (never two under one nonce) and also has up to m things of its own decrypted, in any order and seeing every answer and every plaintext released, tells left from right under random blocks with a probability of at most 2 * 8712 m B / 2^106; with a random key, at most that plus what random keys and random blocks differ by in its two games. With m B at most 2^k, under random blocks no interactive player forges with a probability above 2^(k-92), and no left-or-right adversary with decryption has an advantage above 2^(k-91).", "quantifier": "all keys, nonces, data and messages up to 2^38-192 bytes; all adaptive attackers, numbers of queries and block functions; both build modes for the first part; all adaptive attackers and forgers, numbers of queries and attempts; the uniform distribution over all functions from counter and nonce to 64-byte blocks", "why_tests_cant": "It is a statement about all block functions and all attackers; no set of runs samples either.", "anchors": ["src/poly1305.rs: ChaCha20Poly1305::encrypt, ChaCha20Poly1305::decrypt", "src/chacha20.rs: ChaCha20"]}
{"id": "C96", "title": "How rarely ChaCha20-Poly1305 departs from RFC 8439", "statement": "For any associated data and ciphertext there is one set of at most (2^22+5) times the number of 16-byte blocks hashed (out of the 2^106 values Poly1305's secret point r can take) such that, for every key and nonce whose r is outside it, encrypt never returns this ciphertext with a tag other than RFC 8439's, and decrypt accepts exactly RFC 8439's tag. The set is not always empty.", "quantifier": "all data, ciphertexts, keys, nonces, messages, tags and output buffers; both build modes", "why_tests_cant": "The exceptions of C21 have probability about 2^-84 per block, so random tests never meet them, and their number is a count of the roots of polynomials over the whole field.", "anchors": ["src/poly1305.rs: ChaCha20Poly1305::encrypt, decrypt, Poly1305::tag, reduce"]}
{"id": "C97", "title": "With overflow checks on, no length of any input leads to a wrong answer", "statement": "In a build with overflow checks, whatever the lengths of the inputs and however they are split into calls: every SHA-2 digest, HMAC tag, HKDF output, Ed25519 signature or verdict, ChaCha20 stream output, GCM or ChaCha20-Poly1305 result that is returned is the one its standard (for the Poly1305 tag: C21's exact description) defines; otherwise the call panics. SHA-2 panics exactly from 2^61 bytes on, HMAC-SHA2 exactly when a key, or the padded key with the message, reaches 2^61 bytes, and Ed25519 signing exactly from 2^61-64 bytes on.", "quantifier": "all inputs of any length, all splits into calls, all keys; overflow checks on", "why_tests_cant": "The limits are at 2^36 to 2^61 bytes, which no test reaches, and the claim ranges over everything beyond them too; without overflow checks it is false (C05, C16, C23).", "anchors": ["src/sha2.rs: update, write_digest", "src/hmac.rs: Hmac", "src/hkdf.rs: extract, expand", "src/ed25519.rs: sign, verify", "src/chacha20.rs: ChaCha20", "src/poly1305.rs: ChaCha20Poly1305", "src/gcm.rs: Gcm"]}
{"id": "C98", "title": "Without overflow checks: what everything built on SHA-2 returns, for every length", "statement": "In a build without overflow checks no input length makes SHA-2, HMAC-SHA2, HKDF-SHA2 (within its output limit) or Ed25519 panic: every digest, tag, key, signature and verdict is the one of the standard with a hash whose length field holds the bit length modulo 2^64. Below 2^61 bytes that is SHA-2 itself; from 2^61 bytes on SHA-384 and SHA-512 hash a differently padded message, so digests and signatures are no longer interoperable, although signing and verifying with this crate still agree.", "quantifier": "all messages, keys, salts and infos of any length, all splits into calls; overflow checks off", "why_tests_cant": "The departures begin at 2^61 bytes, which no test reaches, and the claim covers every length beyond.", "anchors": ["src/sha2.rs: update, write_digest", "src/hmac.rs: Hmac", "src/hkdf.rs: extract, expand", "src/ed25519.rs: sign, verify"]}
{"id": "C99", "title": "GCM with a random permutation: exact privacy and forgery bounds", "statement": "Let an attacker choose queries adaptively, each a nonce not used before, associated data and two messages of equal length, and let it see the ciphertext and tag of the left message each time, or of the right message each time. If the block cipher is a uniformly random permutation of the 2^128 blocks and at most s blocks are enciphered for all queries together (one for the hash key, and per query one for the tag and one for each begun 16 bytes of message), then any distinguisher says yes with probabilities that differ by at most s(s-1)/2^128 between the two cases. The experiment with Gcm::<Aes128/192/256> and a random key is this experiment with the FIPS 197 cipher in place of the permutation, so its advantage is at most s(s-1)/2^128 plus the two differences between AES and a random permutation. An attacker that uses one nonce twice has advantage 1. And if, after such queries, the attacker hands m attempts to decrypt, none of them an answer it was given under the same nonce and data, then one of them is accepted with a probability of at most (m B + (s+m)(s+m-1)/2)/2^128, where B bounds the blocks hashed for a query or attempt. The same kind of bound holds when encryptions and attempts come in any order, each chosen from all answers before: with at most s blocks enciphered in all (one per attempt), at most m attempts, none given by an earlier encryption, one is accepted with a probability of at most (m B + s(s-1)/2)/2^128; for Gcm::<AesN> with a random key, at most that plus what AES and a random permutation differ by in this game. An adversary that names two messages of equal length per encryption (never two under one nonce) and also has up to m things of its own decrypted, in any order and seeing every answer and every plaintext released, tells left from right under a random permutation with a probability of at most (2 m B + s(s-1))/2^128; with a random AES key, at most that plus what AES and a random permutation differ by in its two games. With one budget: if the number of moves times the blocks hashed per move is at most 2^k (k at least 2), forging succeeds with at most 2^2k/2^128 and left-or-right with decryption has an advantage of at most 2^(2k+1)/2^128 under a random permutation.", "quantifier": "all adaptive attackers, distinguishers and lists of forgery attempts, numbers of queries, nonces, data and messages within the limits; all permutations and keys are counted; both build modes", "why_tests_cant": "It is a statement about the fraction of all permutations of 2^128 blocks; no set of runs samples it.", "anchors": ["src/gcm.rs: Gcm::encrypt, Gcm::decrypt", "src/aes.rs: BlockCipher, Aes128, Aes192, Aes256"]}
