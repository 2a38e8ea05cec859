{"id": "C01", "title": "ECDSA signatures that are produced always verify", "statement": "If secp256k1_ecdsa_sign returns 1 for a secret key, message hash and nonce function, then the signature it wrote is accepted by secp256k1_ecdsa_verify under the public key that secp256k1_ec_pubkey_create makes from the same secret key, and its s value is in lower-S form.", "quantifier": "every 32-byte secret key, every 32-byte message hash, every nonce function (as an arbitrary callback), every ndata, every blinding state of the context", "why_tests_cant": "The key/message/nonce space has about 2^768 elements and the rare paths (r overflowing the order, s high, retry of the nonce) have negligible probability under random testing.", "anchors": ["src/secp256k1.c:secp256k1_ecdsa_sign", "src/secp256k1.c:secp256k1_ecdsa_sign_inner", "src/ecdsa_impl.h:secp256k1_ecdsa_sig_sign", "src/ecdsa_impl.h:secp256k1_ecdsa_sig_verify"]}
{"id": "C02", "title": "ECDSA verification accepts exactly the lower-S signatures satisfying the ECDSA equation", "statement": "secp256k1_ecdsa_verify returns 1 if and only if r and s are in [1,n-1], s <= (n-1)/2, and the affine x coordinate of (m/s)G + (r/s)Q, reduced modulo n, equals r, where m is the message hash modulo n and Q the public key.", "quantifier": "every signature object, every message hash, every public key object holding a curve point", "why_tests_cant": "Soundness is about all rejected triples; the x >= n wrap-around case is hit with probability 2^-127, so random tests never reach it.", "anchors": ["src/secp256k1.c:secp256k1_ecdsa_verify", "src/ecdsa_impl.h:secp256k1_ecdsa_sig_verify"]}
{"id": "C03", "title": "Signature normalization is total, idempotent and only flips s", "statement": "secp256k1_ecdsa_signature_normalize returns 1 exactly when s > (n-1)/2, and then writes (r, n-s), otherwise writes (r, s); the output is always lower-S, normalizing again returns 0 and changes nothing, and the output satisfies the ECDSA equation for (m,Q) if and only if the input does.", "quantifier": "every signature object, every message, every public key", "why_tests_cant": "Claims about every scalar pair, including the boundary s = (n-1)/2.", "anchors": ["src/secp256k1.c:secp256k1_ecdsa_signature_normalize", "src/scalar_4x64_impl.h:secp256k1_scalar_is_high"]}
{"id": "C04", "title": "ECDSA signing fails closed", "statement": "If the secret key is 0 or >= n, or the nonce function returns 0 before producing an acceptable nonce, secp256k1_ecdsa_sign returns 0 and the output signature is the all-zero object, which secp256k1_ecdsa_verify rejects for every message and key.", "quantifier": "every invalid secret key, every nonce function behaviour, every message", "why_tests_cant": "Invalid keys are 2^-128 rare; callbacks are arbitrary functions.", "anchors": ["src/secp256k1.c:secp256k1_ecdsa_sign_inner"]}
{"id": "C05", "title": "DER signature parsing inverts serialization", "statement": "Serializing any signature object (r,s) with secp256k1_ecdsa_signature_serialize_der into a large enough buffer and parsing the written bytes with secp256k1_ecdsa_signature_parse_der returns 1 and gives back the same object; the written length is at most 72 and is the length reported.", "quantifier": "every signature object (every r, s below the group order), every buffer at least as long as needed", "why_tests_cant": "2^512 signatures; leading-zero/high-bit length cases multiply.", "anchors": ["src/ecdsa_impl.h:secp256k1_ecdsa_sig_serialize", "src/ecdsa_impl.h:secp256k1_ecdsa_sig_parse"]}
{"id": "C06", "title": "DER serialization respects the caller's buffer and reports the needed size", "statement": "secp256k1_ecdsa_signature_serialize_der returns 1 iff the given size is at least the encoded length, always sets the size to the encoded length, never writes a byte at or beyond the given size, and writes nothing when it returns 0.", "quantifier": "every signature object, every output size", "why_tests_cant": "Every (signature, size) pair must be memory safe.", "anchors": ["src/ecdsa_impl.h:secp256k1_ecdsa_sig_serialize", "src/secp256k1.c:secp256k1_ecdsa_signature_serialize_der"]}
{"id": "C07", "title": "DER parsing is memory safe and total on arbitrary bytes", "statement": "secp256k1_ecdsa_signature_parse_der never reads outside the given input bytes, whatever they are, and always terminates returning 0 or 1; if it returns 0 the signature object is all zero.", "quantifier": "every byte string of every length", "why_tests_cant": "All byte strings of all lengths; out-of-bounds reads need not crash a test.", "anchors": ["src/ecdsa_impl.h:secp256k1_der_read_len", "src/ecdsa_impl.h:secp256k1_der_parse_integer", "src/ecdsa_impl.h:secp256k1_ecdsa_sig_parse"]}
{"id": "C08", "title": "DER parsing accepts exactly strict DER", "statement": "The parser accepts a byte string iff it is a DER SEQUENCE of two INTEGERs with minimal length and minimal integer encodings and nothing following; out-of-range or negative integers parse but yield value zero, so verification fails.", "quantifier": "every byte string", "why_tests_cant": "Acceptance set over all byte strings; malleability bugs hide in unexpected encodings.", "anchors": ["src/ecdsa_impl.h:secp256k1_ecdsa_sig_parse", "include/secp256k1.h:secp256k1_ecdsa_signature_parse_der"]}
{"id": "C09", "title": "Compact signature encoding is a bijection onto in-range pairs", "statement": "secp256k1_ecdsa_signature_parse_compact returns 1 iff both 32-byte big-endian halves are < n; then serialize_compact gives back the identical 64 bytes; when it returns 0 the object is all zero and never verifies.", "quantifier": "every 64-byte input", "why_tests_cant": "2^512 inputs, boundary at n.", "anchors": ["src/secp256k1.c:secp256k1_ecdsa_signature_parse_compact", "src/secp256k1.c:secp256k1_ecdsa_signature_serialize_compact"]}
{"id": "C10", "title": "Public key parsing yields only points on the curve, and exactly the documented encodings", "statement": "secp256k1_ec_pubkey_parse returns 1 iff the input is 33 bytes 02/03||x with x < p and x^3+7 a square, or 65 bytes 04/06/07||x||y with x,y < p on the curve and, for 06/07, the tag's low bit equal to the parity of y; the resulting object then represents that point; if it returns 0 the object is all zero.", "quantifier": "every byte string of every length", "why_tests_cant": "Invalid-curve acceptance is a universal statement over 2^520 inputs.", "anchors": ["src/eckey_impl.h:secp256k1_eckey_pubkey_parse", "src/secp256k1.c:secp256k1_ec_pubkey_parse", "src/group_impl.h:secp256k1_ge_set_xo_var"]}
{"id": "C11", "title": "Public key serialization round-trips", "statement": "For every valid public key object, serializing in compressed or uncompressed form into a sufficient buffer returns 1 with length 33 or 65, and parsing those bytes returns the same object; distinct keys have distinct serializations.", "quantifier": "every point of the curve group except infinity, both formats, every sufficient buffer length", "why_tests_cant": "2^256 keys.", "anchors": ["src/eckey_impl.h:secp256k1_eckey_pubkey_serialize33", "src/secp256k1.c:secp256k1_ec_pubkey_serialize"]}
{"id": "C12", "title": "Secret key validity is exactly 1 <= k < n", "statement": "secp256k1_ec_seckey_verify returns 1 iff the 32 bytes read big-endian are in [1,n-1]; secp256k1_ec_pubkey_create succeeds for exactly these and produces k*G, never infinity; otherwise it writes the all-zero object and returns 0.", "quantifier": "every 32-byte string, every blinding state", "why_tests_cant": "2^256 keys; boundary cases.", "anchors": ["src/secp256k1.c:secp256k1_ec_seckey_verify", "src/secp256k1.c:secp256k1_ec_pubkey_create"]}
{"id": "C13", "title": "Additive tweaking commutes with public key creation", "statement": "For every valid secret key k and 32-byte tweak t, seckey_tweak_add on k and pubkey_tweak_add on pubkey_create(k) succeed or fail together (fail iff t >= n or k+t = 0 mod n), and on success pubkey_create of the tweaked secret equals the tweaked public key.", "quantifier": "every secret key, every tweak", "why_tests_cant": "2^512 pairs, failing cases 2^-256 rare.", "anchors": ["src/secp256k1.c:secp256k1_ec_seckey_tweak_add", "src/secp256k1.c:secp256k1_ec_pubkey_tweak_add"]}
{"id": "C14", "title": "Multiplicative tweaking commutes with public key creation", "statement": "For every valid secret key k and tweak t, seckey_tweak_mul and pubkey_tweak_mul succeed or fail together (fail iff t = 0 or t >= n), and on success pubkey_create of the tweaked secret equals the tweaked public key.", "quantifier": "every secret key, every tweak", "why_tests_cant": "2^512 pairs.", "anchors": ["src/secp256k1.c:secp256k1_ec_seckey_tweak_mul", "src/secp256k1.c:secp256k1_ec_pubkey_tweak_mul"]}
{"id": "C15", "title": "Negation is an involution and commutes with public key creation", "statement": "seckey_negate maps k to n-k, pubkey_negate maps (x,y) to (x,-y), both are involutions and pubkey_create(negate k) = negate(pubkey_create k).", "quantifier": "every valid key", "why_tests_cant": "Universal over all keys.", "anchors": ["src/secp256k1.c:secp256k1_ec_seckey_negate", "src/secp256k1.c:secp256k1_ec_pubkey_negate"]}
{"id": "C16", "title": "Public key combination is the group sum and order independent", "statement": "secp256k1_ec_pubkey_combine on a nonempty list of valid keys returns 1 with the group sum, or 0 iff the sum is infinity; the result is independent of the order of the list.", "quantifier": "every number of keys, every list of valid keys, every permutation", "why_tests_cant": "Unbounded list length; exceptional cases (doubling, cancelling) inside the unified addition formula.", "anchors": ["src/secp256k1.c:secp256k1_ec_pubkey_combine", "src/group_impl.h:secp256k1_gej_add_ge"]}
{"id": "C17", "title": "Public key comparison is a total order matching the compressed encoding", "statement": "secp256k1_ec_pubkey_cmp has the sign of the lexicographic comparison of the two compressed serializations; it is antisymmetric, transitive and zero iff the keys are equal.", "quantifier": "every pair and triple of valid keys", "why_tests_cant": "Order laws quantify over all triples.", "anchors": ["src/secp256k1.c:secp256k1_ec_pubkey_cmp"]}
{"id": "C18", "title": "Public key sorting returns a sorted permutation", "statement": "secp256k1_ec_pubkey_sort leaves the array a permutation of its input in nondecreasing order of secp256k1_ec_pubkey_cmp, performs no access outside the array, and terminates.", "quantifier": "every array length and contents, every comparison function that is a total preorder (and permutation for any comparison function at all)", "why_tests_cant": "Unbounded lengths; heap sort index arithmetic.", "anchors": ["src/hsort_impl.h:secp256k1_hsort", "src/hsort_impl.h:secp256k1_heap_down", "src/secp256k1.c:secp256k1_ec_pubkey_sort"]}
{"id": "C19", "title": "Context randomization never changes results", "statement": "Whatever sequence of secp256k1_context_randomize calls (any seeds, or NULL) was made, generator multiplication returns the same point k*G, so pubkey_create and all signing functions return the same outputs as on a fresh context.", "quantifier": "every history of randomize calls, every scalar", "why_tests_cant": "Unbounded histories, 2^256 seeds each.", "anchors": ["src/ecmult_gen_impl.h:secp256k1_ecmult_gen", "src/ecmult_gen_impl.h:secp256k1_ecmult_gen_blind", "src/secp256k1.c:secp256k1_context_randomize"]}
{"id": "C20", "title": "ECDH is symmetric", "statement": "For valid secret keys a,b and any hash function callback, secp256k1_ecdh(pubkey_create(b), a) and secp256k1_ecdh(pubkey_create(a), b) pass identical coordinates to the callback and hence give the same output; an invalid secret key gives return value 0.", "quantifier": "every pair of secret keys, every hash callback", "why_tests_cant": "2^512 pairs; constant-time ladder corner cases.", "anchors": ["src/modules/ecdh/main_impl.h:secp256k1_ecdh", "src/ecmult_const_impl.h:secp256k1_ecmult_const"]}
{"id": "C21", "title": "Public key recovery inverts recoverable signing", "statement": "If secp256k1_ecdsa_sign_recoverable returns 1 for (k,m) then secp256k1_ecdsa_recover on that signature and m returns 1 with pubkey_create(k).", "quantifier": "every secret key, message, nonce function", "why_tests_cant": "recid >= 2 (r overflow) has probability 2^-127: untestable by sampling.", "anchors": ["src/modules/recovery/main_impl.h:secp256k1_ecdsa_sign_recoverable", "src/modules/recovery/main_impl.h:secp256k1_ecdsa_recover"]}
{"id": "C22", "title": "Every recovered key verifies the signature", "statement": "If secp256k1_ecdsa_recover returns 1 with key Q for (r,s,recid) and m, then (r,s) satisfies the ECDSA equation for m and Q, so after normalization ecdsa_verify accepts; it returns 0 when r or s is zero.", "quantifier": "every recoverable signature object, every message", "why_tests_cant": "Universal soundness over all signatures.", "anchors": ["src/modules/recovery/main_impl.h:secp256k1_ecdsa_sig_recover"]}
{"id": "C23", "title": "Schnorr signatures that are produced always verify", "statement": "If secp256k1_schnorrsig_sign32 or sign_custom returns 1 then secp256k1_schnorrsig_verify accepts the signature for that message and the keypair's x-only public key.", "quantifier": "every keypair, every message of every length, every aux randomness, every nonce function callback", "why_tests_cant": "Unbounded message length, all keys, all nonces.", "anchors": ["src/modules/schnorrsig/main_impl.h:secp256k1_schnorrsig_sign_internal", "src/modules/schnorrsig/main_impl.h:secp256k1_schnorrsig_verify"]}
{"id": "C24", "title": "Schnorr verification is exactly the BIP-340 equation", "statement": "secp256k1_schnorrsig_verify returns 1 iff r < p, s < n, and R = sG - eP is a finite point with even y and x(R) = r, where e is the BIP0340/challenge tagged hash of r||px||msg modulo n.", "quantifier": "every 64-byte signature, every message, every x-only key", "why_tests_cant": "Soundness quantifies over all rejected signatures.", "anchors": ["src/modules/schnorrsig/main_impl.h:secp256k1_schnorrsig_verify", "src/modules/schnorrsig/main_impl.h:secp256k1_schnorrsig_challenge"]}
{"id": "C25", "title": "Schnorr signing fails closed", "statement": "When the nonce function fails, the nonce reduces to zero, or the keypair is invalid, sign returns 0 and the 64 signature bytes are all zero.", "quantifier": "every keypair object, nonce callback, message", "why_tests_cant": "Rare paths.", "anchors": ["src/modules/schnorrsig/main_impl.h:secp256k1_schnorrsig_sign_internal"]}
{"id": "C26", "title": "X-only keys: parse/serialize/from_pubkey agree", "statement": "xonly_pubkey_parse accepts exactly x < p with x^3+7 square and yields the point with even y; serialize returns the same 32 bytes; xonly_pubkey_from_pubkey gives the even-y representative and pk_parity tells whether it was negated.", "quantifier": "every 32-byte string, every public key", "why_tests_cant": "Universal over 2^256 inputs.", "anchors": ["src/modules/extrakeys/main_impl.h:secp256k1_xonly_pubkey_parse", "src/modules/extrakeys/main_impl.h:secp256k1_xonly_pubkey_from_pubkey"]}
{"id": "C27", "title": "X-only tweaking: keypair, public key and check agree", "statement": "For every keypair and tweak, keypair_xonly_tweak_add and xonly_pubkey_tweak_add on its x-only key succeed together and give the same public key; xonly_pubkey_tweak_add_check returns 1 for exactly the (x, parity) of the tweaked key.", "quantifier": "every keypair, every tweak, every claimed (x, parity)", "why_tests_cant": "2^512 pairs; uniqueness of the accepted commitment is universal.", "anchors": ["src/modules/extrakeys/main_impl.h:secp256k1_keypair_xonly_tweak_add", "src/modules/extrakeys/main_impl.h:secp256k1_xonly_pubkey_tweak_add_check"]}
{"id": "C28", "title": "MuSig2 aggregated signatures verify", "statement": "For any number of signers who all follow the API (key aggregation, any sequence of plain and x-only tweaks, nonce generation and aggregation, session processing, partial signing), the result of musig_partial_sig_agg is accepted by secp256k1_schnorrsig_verify under the (tweaked) aggregate x-only key.", "quantifier": "every number of signers, every list of keys, every tweak sequence, every nonces, every message", "why_tests_cant": "Unbounded participants and tweak histories; parity combinations double per step.", "anchors": ["src/modules/musig/keyagg_impl.h:secp256k1_musig_pubkey_agg", "src/modules/musig/session_impl.h:secp256k1_musig_partial_sign", "src/modules/musig/session_impl.h:secp256k1_musig_partial_sig_agg"]}
{"id": "C29", "title": "MuSig2 partial signature verification is complete and exact", "statement": "musig_partial_sig_verify accepts the partial signature produced by an honest signer, and accepts a partial signature s iff s*G equals the signer's effective nonce plus challenge times coefficient times signed key: exactly one s is accepted per signer and session.", "quantifier": "every session, signer, partial signature", "why_tests_cant": "Universal over sessions and all candidate partial signatures.", "anchors": ["src/modules/musig/session_impl.h:secp256k1_musig_partial_sig_verify"]}
{"id": "C30", "title": "A MuSig2 secret nonce signs at most once", "statement": "Whatever the outcome of musig_partial_sign on a secnonce object, the object is all-zero afterwards, and any later partial_sign with it produces no signature and reports through the illegal callback; so in any history of calls at most one partial signature comes out of one nonce_gen.", "quantifier": "every history of API calls on a secnonce object, every arguments", "why_tests_cant": "Quantifies over histories and failing paths.", "anchors": ["src/modules/musig/session_impl.h:secp256k1_musig_partial_sign", "src/modules/musig/session_impl.h:secp256k1_musig_secnonce_load"]}
{"id": "C31", "title": "ElligatorSwift decoding is total and lands on the curve", "statement": "secp256k1_ellswift_decode returns 1 for every 64-byte input and the result is a valid public key object.", "quantifier": "every 64-byte string", "why_tests_cant": "2^512 inputs with rare exceptional branches (u=0, t=0, u^3+t^2+7=0).", "anchors": ["src/modules/ellswift/main_impl.h:secp256k1_ellswift_xswiftec_frac_var", "src/modules/ellswift/main_impl.h:secp256k1_ellswift_decode"]}
{"id": "C32", "title": "ElligatorSwift inverse is exact", "statement": "Whenever the inverse map succeeds on (x,u,c) with result t and u is not 0 modulo p, decoding (u,t) gives x; hence ellswift_encode (and ellswift_create) followed by ellswift_decode returns the original public key including its parity, unless the hash chosen as u is a multiple of p.", "quantifier": "every x on the curve, every u, every branch c in 0..7; every public key and every randomness", "why_tests_cant": "Eight branches with rare exceptional conditions.", "anchors": ["src/modules/ellswift/main_impl.h:secp256k1_ellswift_xswiftec_inv_var", "src/modules/ellswift/main_impl.h:secp256k1_ellswift_encode"]}
{"id": "C33", "title": "ElligatorSwift x-only ECDH is symmetric", "statement": "If ellA, ellB decode to keys with the x coordinates of aG and bG, then both parties' secp256k1_ellswift_xdh calls hand the same 32-byte shared x to the hash callback, namely x(abG).", "quantifier": "every pair of secret keys, every encodings of the public keys", "why_tests_cant": "All key pairs and all of the ~2^256 encodings per key.", "anchors": ["src/modules/ellswift/main_impl.h:secp256k1_ellswift_xdh", "src/ecmult_const_impl.h:secp256k1_ecmult_const_xonly"]}
{"id": "C34", "title": "ElligatorSwift x-only ECDH rejects invalid secret keys", "statement": "secp256k1_ellswift_xdh returns 0 whenever the 32-byte secret key is invalid in the sense of secp256k1_ec_seckey_verify (zero or >= n), as documented in the header.", "quantifier": "every secret key, all encodings, all hash callbacks", "why_tests_cant": "Overflowing keys are 2^-128 rare, so tests using random keys never see them.", "anchors": ["src/modules/ellswift/main_impl.h:secp256k1_ellswift_xdh", "include/secp256k1_ellswift.h:secp256k1_ellswift_xdh"]}
{"id": "C35", "title": "SHA-256 streaming is independent of chunking and equals FIPS 180-4", "statement": "Feeding a message to the hash in any sequence of write calls and finalizing gives the FIPS 180-4 SHA-256 of the concatenation; secp256k1_tagged_sha256 equals SHA256(SHA256(tag)||SHA256(tag)||msg).", "quantifier": "every message shorter than 2^61 bytes, every split into chunks, every tag", "why_tests_cant": "Infinitely many messages and splits.", "anchors": ["src/hash_impl.h:secp256k1_sha256_write", "src/hash_impl.h:secp256k1_sha256_finalize", "src/secp256k1.c:secp256k1_tagged_sha256"]}
{"id": "C36", "title": "HMAC-SHA256 and the RFC 6979 generator follow their specifications", "statement": "The HMAC context computes RFC 2104 HMAC for keys of every length; the default nonce function's n-th output is the n-th candidate of RFC 6979 3.2 with the documented key data, for every attempt counter.", "quantifier": "every key length, every message, every counter", "why_tests_cant": "Unbounded lengths and counters.", "anchors": ["src/hash_impl.h:secp256k1_hmac_sha256_initialize", "src/hash_impl.h:secp256k1_rfc6979_hmac_sha256_generate", "src/secp256k1.c:nonce_function_rfc6979"]}
{"id": "C37", "title": "Illegal arguments are reported and never silently used", "statement": "For each API function, an argument that violates a documented precondition checked by the library makes it call the illegal callback and return 0 (if the callback returns) without undefined behaviour; calls with legal arguments never invoke the callback. Exceptions stated separately: key comparison, combination and ECDH report an invalid key object but go on with it (sorting reports those it compares), and all of them return 0 when a pointer is missing.", "quantifier": "every argument combination including null pointers, zeroed objects and the static context", "why_tests_cant": "Combinatorial argument space; absence of callback calls on legal inputs is universal.", "anchors": ["src/secp256k1.c:ARG_CHECK", "src/secp256k1.c:secp256k1_pubkey_load", "src/util.h:secp256k1_callback_call"]}
{"id": "C38", "title": "Scratch space allocations are aligned, disjoint, in bounds and zeroed", "statement": "Successive secp256k1_scratch_alloc calls return aligned, pairwise disjoint, zero-filled regions inside the scratch space or NULL, arithmetic never wraps (for sizes that fit the address space together with the header), and applying a checkpoint restores exactly the allocation state at the time it was taken.", "quantifier": "every history of create/alloc/checkpoint/apply calls with every sizes including near SIZE_MAX", "why_tests_cant": "Unbounded histories; overflow corner cases.", "anchors": ["src/scratch_impl.h:secp256k1_scratch_alloc", "src/scratch_impl.h:secp256k1_scratch_apply_checkpoint"]}
{"id": "C39", "title": "Field arithmetic is exact modulo p and never overflows within its magnitude contract", "statement": "For inputs obeying the documented magnitude limits, multiplication, squaring, addition, negation, halving, small-integer multiplication, normalization, comparison and byte conversion compute the exact result modulo p, no 64-bit or 128-bit intermediate overflows, and the outputs obey the documented magnitude.", "quantifier": "every field element representation within the magnitude limits", "why_tests_cant": "2^320 limb patterns; carry bugs have appeared with probability 2^-64 and below in such code.", "anchors": ["src/field_5x52_impl.h", "src/field_5x52_int128_impl.h:secp256k1_fe_mul_inner"]}
{"id": "C40", "title": "Scalar arithmetic is exact modulo n", "statement": "Scalar addition, multiplication, negation, halving, conditional negation, bit extraction, shifting multiplication and byte conversion return the fully reduced exact result modulo the group order with no lost carry.", "quantifier": "every pair of scalars below n (and every 512-bit product)", "why_tests_cant": "2^512 pairs; rare carries.", "anchors": ["src/scalar_4x64_impl.h"]}
{"id": "C41", "title": "Modular inversion is correct for every input", "statement": "The safegcd based inversions of scalars and field elements return the inverse (0 for 0), constant and variable time versions agree, and no signed intermediate overflows.", "quantifier": "every residue modulo p and modulo n", "why_tests_cant": "The iteration count bound (590 divsteps) is a statement about all 2^256 inputs that no sampling can establish.", "anchors": ["src/modinv64_impl.h:secp256k1_modinv64", "src/modinv64_impl.h:secp256k1_modinv64_var"]}
{"id": "C42", "title": "The point formulas implement the group law for all inputs", "statement": "Doubling and every addition routine (variable time Jacobian+Jacobian, Jacobian+affine, with given z inverse, and the constant-time unified one) return a representation of the exact group sum for all pairs of points, including equal points, opposite points and infinity, with all field magnitudes within limits.", "quantifier": "every pair of curve points in every projective representation", "why_tests_cant": "Exceptional cases are measure zero.", "anchors": ["src/group_impl.h:secp256k1_gej_double", "src/group_impl.h:secp256k1_gej_add_var", "src/group_impl.h:secp256k1_gej_add_ge_var", "src/group_impl.h:secp256k1_gej_add_ge", "src/group_impl.h:secp256k1_gej_add_zinv_var"]}
{"id": "C43", "title": "All multiplication algorithms compute the same linear combination", "statement": "Double multiplication used by verification, constant-time multiplication used by ECDH, generator multiplication used by signing and multi-point multiplication used for batches return exactly the group-theoretic na*A + ng*G (or the sum over all points).", "quantifier": "every scalars, every points, every number of points, every scratch size", "why_tests_cant": "Digit recodings have rare carry patterns; number of points unbounded.", "anchors": ["src/ecmult_impl.h:secp256k1_ecmult_strauss_wnaf", "src/ecmult_const_impl.h:secp256k1_ecmult_const", "src/ecmult_gen_impl.h:secp256k1_ecmult_gen", "src/ecmult_impl.h:secp256k1_ecmult_multi_var"]}
{"id": "C44", "title": "The endomorphism split is correct and short for every scalar", "statement": "Splitting a scalar k gives r1, r2 with r1 + lambda*r2 = k mod n where both r1 and r2 (or their negatives) are below 2^128, and multiplying x by beta is multiplication of the point by lambda.", "quantifier": "every scalar below n, every curve point", "why_tests_cant": "The bound is a statement about all 2^256 scalars (the rounding analysis).", "anchors": ["src/scalar_impl.h:secp256k1_scalar_split_lambda", "src/group_impl.h:secp256k1_ge_mul_lambda"]}
{"id": "C45", "title": "The curve group has prime order n", "statement": "Every point accepted by the library is a multiple of the generator: the group of all points has exactly prime order n, so no subgroup check is needed and n*Q is infinity for every public key.", "quantifier": "every curve point", "why_tests_cant": "The group has 2^256 elements.", "anchors": ["src/group_impl.h:secp256k1_ge_is_in_correct_subgroup", "src/group_impl.h:secp256k1_ge_const_g"]}
{"id": "C46", "title": "Batch multiplication covers every point exactly once", "statement": "secp256k1_ecmult_multi_var requests each index 0..n-1 from the caller's callback exactly once whatever the scratch size and returns 0 if the callback fails; too little scratch falls back to the simple algorithm.", "quantifier": "every number of points, every scratch size, every callback", "why_tests_cant": "Batch boundaries for unbounded n.", "anchors": ["src/ecmult_impl.h:secp256k1_ecmult_multi_var", "src/ecmult_impl.h:secp256k1_ecmult_multi_batch_size_helper"]}
{"id": "C47", "title": "Constant-time selection helpers select exactly", "statement": "Conditional move, conditional zeroing and conditional negation helpers return exactly one of their two inputs according to the flag, for every bit pattern.", "quantifier": "every flag in {0,1}, every values", "why_tests_cant": "All bit patterns.", "anchors": ["src/util.h:secp256k1_memczero", "src/util.h:secp256k1_int_cmov", "src/scalar_4x64_impl.h:secp256k1_scalar_cmov", "src/field_5x52_impl.h:secp256k1_fe_impl_cmov"]}
{"id": "C48", "title": "The emulated 128-bit integer arithmetic equals native 128-bit arithmetic", "statement": "On platforms without a native 128-bit type, the two-word emulation of multiplication, accumulation, shifts and comparisons gives the same results as exact arithmetic modulo 2^128.", "quantifier": "all 64-bit and 128-bit operands", "why_tests_cant": "2^256 operand pairs per operation.", "anchors": ["src/int128_struct_impl.h"]}
{"id": "C49", "title": "Key aggregation is deterministic and tweak bookkeeping is exact", "statement": "After any sequence of successful musig_pubkey_ec_tweak_add / xonly_tweak_add calls on an aggregation cache, the cache's parity and accumulated tweak satisfy Q = g*Q0 + t*G with Q0 the untweaked aggregate sum of coefficient times key, so musig_pubkey_get returns that Q.", "quantifier": "every list of keys, every sequence of tweaks", "why_tests_cant": "Unbounded histories.", "anchors": ["src/modules/musig/keyagg_impl.h:secp256k1_musig_pubkey_tweak_add_internal"]}
{"id": "C50", "title": "Contexts only change through the documented calls", "statement": "The static context is never modified and cannot be used for signing; a cloned context behaves as the original; no API call other than randomize and the callback setters changes any context field.", "quantifier": "every history of API calls on contexts", "why_tests_cant": "Unbounded histories.", "anchors": ["src/secp256k1.c:secp256k1_context_preallocated_clone", "src/secp256k1.c:secp256k1_context_static", "src/secp256k1.c:secp256k1_context_randomize"]}
{"id": "C51", "title": "MuSig2 public data encodings round-trip and reject invalid points", "statement": "Public nonces, aggregate nonces and partial signatures that parse re-serialize to the identical bytes; parse accepts exactly pairs of compressed curve points (or all-zero infinity for aggregate nonces) and scalars < n.", "quantifier": "every 66-byte / 32-byte string", "why_tests_cant": "Universal over inputs.", "anchors": ["src/modules/musig/session_impl.h:secp256k1_musig_pubnonce_parse", "src/modules/musig/session_impl.h:secp256k1_musig_aggnonce_parse", "src/modules/musig/session_impl.h:secp256k1_musig_partial_sig_parse"]}
{"id": "C52", "title": "ElligatorSwift inverse branches are disjoint and complete", "statement": "For a fixed x and u the inverse map's results over the eight branches are pairwise different, and every non-exceptional t that decodes with u to x is the result of one of them, so a uniformly chosen branch gives uniform encodings.", "quantifier": "every x on the curve, every u not 0 modulo p, all branches, every t", "why_tests_cant": "2^512 pairs (u,t).", "anchors": ["src/modules/ellswift/main_impl.h:secp256k1_ellswift_xswiftec_inv_var"]}
{"id": "C53", "title": "The square test of field elements is exact", "statement": "Whether a number is the x coordinate of a curve point (parsing of public keys, ElligatorSwift encoding and decoding, x-only checks) is decided by a Jacobi symbol computation in at most 25 rounds with a square root as fallback; for every field element the answer is yes exactly if the element is a square modulo p, whichever way it is found, and no signed intermediate overflows.", "quantifier": "every field element of every magnitude, every number of rounds, every modulus the computation accepts", "why_tests_cant": "2^256 inputs; the sign of the symbol depends on single bits at the end of each round, and the fallback is almost never taken in production builds.", "anchors": ["src/modinv64_impl.h:secp256k1_jacobi64_maybe_var", "src/modinv64_impl.h:secp256k1_modinv64_posdivsteps_62_var", "src/field_5x52_impl.h:secp256k1_fe_impl_is_square_var"]}
{"id": "C54", "title": "Field arithmetic of the 32-bit build is exact and agrees with the 64-bit build", "statement": "On platforms without 128-bit integers every field operation (multiply, square, add, negate, small multiples, halve, normalize, zero tests, compare, byte and storage conversion, select, square root) on ten 26-bit limbs returns the exact result modulo p without losing a carry, and every computation made of these operations gives the same bytes as on 64-bit platforms.", "quantifier": "every field element of every magnitude up to 31 (8 for multiplication), every computation within the magnitude limits of src/field.h with 31 in place of 32", "why_tests_cant": "2^512 pairs of residues, many representations of each, carries that occur with probability 2^-26 or less; the two builds are never run side by side.", "anchors": ["src/field_10x26.h", "src/field_10x26_impl.h"]}
{"id": "C55", "title": "Scalar arithmetic of the 32-bit build is exact and agrees with the 64-bit build", "statement": "On platforms without 128-bit integers every scalar operation (add, multiply, reduce, negate, halve, add a power of two, predicates, bit extraction, byte parsing and serialization, select, split in halves, rounded product, lambda split) on eight 32-bit words returns the exact result modulo the group order without losing a carry, and every computation made of these operations gives the same bytes, predicates and window digits as on 64-bit platforms.", "quantifier": "every scalar, every 512-bit product, every 32-byte string, every bit window, every computation made of the operations", "why_tests_cant": "2^512 pairs of scalars; carry and final-reduction cases have probability 2^-32 to 2^-128; the two builds are never run side by side.", "anchors": ["src/scalar_8x32.h", "src/scalar_8x32_impl.h", "src/scalar_impl.h"]}
{"id": "C56", "title": "Inversion and square test of the 32-bit build are exact and agree with the 64-bit build", "statement": "On platforms without 128-bit integers the inversions of scalars and field elements return the inverse (0 for 0), in constant and in variable time, after at most 20 and 25 rounds and without signed overflow, for every odd modulus from 3 to 2^256; the Jacobi symbol computation returns the symbol or gives up, the square test is exact, and all results are those of the 64-bit build.", "quantifier": "every odd modulus up to 2^256 and every residue; every scalar; every field element of magnitude up to 31; every number of rounds of the symbol computation", "why_tests_cant": "The bound on the rounds is a statement about all 2^256 inputs; overflow of a 32-bit intermediate depends on rare limb patterns; the two builds are never run side by side.", "anchors": ["src/modinv32.h", "src/modinv32_impl.h", "src/scalar_8x32_impl.h:secp256k1_scalar_inverse", "src/field_10x26_impl.h:secp256k1_fe_impl_inv", "src/field_10x26_impl.h:secp256k1_fe_impl_is_square_var"]}
{"id": "C57", "title": "The 32-bit and the 64-bit build answer every history of calls alike", "statement": "For every program of context operations and API calls, a library built with the 32-bit field and scalar code returns the same values, reports the same misuse and writes the same bytes as one built with the 64-bit code.", "quantifier": "every finite sequence of context creations, clones, randomizations, callback changes, destructions and of the non-context API calls of all modules, with every argument of the right size (NULL included), every user-supplied nonce and hash function, and every content of fresh memory", "why_tests_cant": "The two builds are never run side by side, and a lost carry or a magnitude overflow in the 32-bit code shows only for rare inputs or after rare histories.", "anchors": ["src/field_10x26_impl.h", "src/scalar_8x32_impl.h", "src/modinv32_impl.h", "src/util.h", "src/group_impl.h", "src/ecmult_impl.h", "src/ecmult_const_impl.h", "src/ecmult_gen_impl.h", "src/secp256k1.c", "src/modules"]}
{"id": "C58", "title": "Timing does not depend on secrets", "statement": "For the API functions that handle secret keys or secret nonces, in the 32-bit and the 64-bit build, two calls that differ only in secret data take the same branches, access the same memory addresses, divide the same operands and call the same functions, except as far as they depend on values that are made public on purpose: for ECDSA signing whether a nonce was valid, for Schnorr signing the public key and public nonce, and so on for each function; for key checks, public key creation, tweaks, context randomization and both ECDH functions, nothing.", "quantifier": "every pair of calls with the same arguments and public memory and any two contents of secret memory, every number of steps, every meaning of the arithmetic operators and every layout of memory", "why_tests_cant": "A test under a memory checker only follows the paths its inputs take; a branch or index that depends on a secret in a rare case goes unseen, and timing differences cannot be exhausted by measurements.", "anchors": ["src/secp256k1.c", "src/ecmult_gen_impl.h", "src/ecmult_const_impl.h", "src/ecdsa_impl.h", "src/eckey_impl.h", "src/scalar_impl.h", "src/scalar_4x64_impl.h", "src/scalar_8x32_impl.h", "src/field_5x52_impl.h", "src/field_10x26_impl.h", "src/modinv64_impl.h", "src/modinv32_impl.h", "src/hash_impl.h", "src/modules", "src/ctime_tests.c"]}
{"id": "C59", "title": "The lax signature parser accepts exactly its format", "statement": "ecdsa_signature_parse_der_lax (contrib) never reads outside its input, always initializes the signature object, and accepts exactly the byte strings with a sequence tag, any outer length, and two integers whose lengths may be in any form below 2^56 and fit the input, followed by anything. The object holds the two unsigned numbers, or zeros if one of them is not below the group order. It accepts every strict DER signature, with the same object as the strict parser when both numbers are in range. If parsing failed or a number is zero or out of range, verification fails for every message and key.", "quantifier": "every byte string, previous content of the object, message and public key", "why_tests_cant": "Tests try a few thousand mutated encodings; the set of encodings is unbounded and a misread length, a missed bound or a rare padding decides between a crash, a wrong signature and consensus failure.", "anchors": ["contrib/lax_der_parsing.c: ecdsa_signature_parse_der_lax", "contrib/lax_der_parsing.h"]}
{"id": "C60", "title": "Private keys survive DER export and import", "statement": "ec_privkey_export_der (contrib) succeeds exactly for valid secret keys, writes exactly the 214 (compressed) or 279 bytes of the SEC 1 ECPrivateKey structure with the curve parameters and the public key d*G, and ec_privkey_import_der reads the same key back. For an invalid key it reports length 0 and writes nothing. Import never reads outside its input, accepts exactly its permissive format with a valid key, and otherwise leaves 32 zero bytes.", "quantifier": "every key, buffer, context and every byte string given to import", "why_tests_cant": "Tests export and import a few random keys; import must be safe on every malformed string and the round trip must hold for every key.", "anchors": ["contrib/lax_der_privatekey_parsing.c: ec_privkey_import_der, ec_privkey_export_der", "contrib/lax_der_privatekey_parsing.h"]}
{"id": "C61", "title": "The table size is invisible", "statement": "For every pair of COMB_BLOCKS and COMB_TEETH that the compile-time checks accept (exactly the documented ones), the table program computes a table whose entries are all finite and are the points the comb needs; multiplying the generator with that table returns a*G for every scalar and under every history of blinding. Programs built with different table sizes therefore produce the same public keys, and creating keys, key pairs and ElligatorSwift encodings, ECDSA signing (with or without recovery) Schnorr signing and the generation of MuSig nonces return the same bytes in all of them. For 11 blocks and 6 teeth the computed table is word for word the one that is checked in.", "quantifier": "every accepted configuration (blocks, teeth), every scalar, every history of context builds and randomizations, every key, message and nonce function that writes 32 bytes", "why_tests_cant": "A build has one configuration and a test a few scalars; the claim covers all configurations, scalars and blindings at once.", "anchors": ["src/ecmult_gen.h: COMB_BLOCKS, COMB_TEETH, COMB_SPACING, COMB_BITS", "src/ecmult_gen_impl.h: secp256k1_ecmult_gen, secp256k1_ecmult_gen_blind, secp256k1_ecmult_gen_scalar_diff", "src/ecmult_gen_compute_table_impl.h: secp256k1_ecmult_gen_compute_table", "src/precompute_ecmult_gen.c: print_table", "src/secp256k1.c: secp256k1_ec_pubkey_create, secp256k1_ecdsa_sign", "src/modules/schnorrsig/main_impl.h: secp256k1_schnorrsig_sign_internal"]}
{"id": "C62", "title": "The window size is invisible", "statement": "For every ECMULT_WINDOW_SIZE that the compile-time checks accept, with a table file written by the table program for any accepted size, the arrays left by the preprocessor have exactly the declared number of entries, entry i is (2i+1)G and (2i+1)2^128 G, and the multiplication used by verification returns na*A + ng*G for every point and scalars, reading the arrays within their bounds only. Programs built with different window sizes therefore compute the same points. ECDSA verification, Schnorr verification and public key recovery answer alike in all of these builds.", "quantifier": "every accepted window size of the program and of the table program, every list of points and scalars", "why_tests_cant": "A build has one window size and a test a few scalars; the claim covers all sizes, points and scalars at once.", "anchors": ["src/ecmult.h: ECMULT_WINDOW_SIZE, ECMULT_TABLE_SIZE", "src/ecmult_impl.h: secp256k1_ecmult_strauss_wnaf, secp256k1_ecmult", "src/ecmult_compute_table_impl.h: secp256k1_ecmult_compute_two_tables", "src/precompute_ecmult.c: print_table, print_two_tables, main", "src/precomputed_ecmult.c", "src/ecdsa_impl.h: secp256k1_ecdsa_sig_verify", "src/modules/schnorrsig/main_impl.h: secp256k1_schnorrsig_verify", "src/modules/recovery/main_impl.h: secp256k1_ecdsa_recover"]}
{"id": "C63", "title": "Contexts are created, cloned and destroyed without surprises or leaks", "statement": "secp256k1_context_create accepts exactly the documented flags, reports nothing (the self test included) and returns a fresh context in one allocated block; with other flags it returns NULL and keeps no memory. Cloning copies the context, and when memory is exhausted reports to the context's own callbacks and returns NULL. Destroying frees the one block; the static context and NULL are never freed. After any history the allocated blocks are exactly the contexts the program holds. When creation finds no memory it calls the error callback, which must not return.", "quantifier": "every flags word, every behaviour of malloc, every history of create, clone, randomize, callback setting and destroy", "why_tests_cant": "Tests do not make malloc fail and try a few flags and one or two histories.", "anchors": ["src/secp256k1.c: secp256k1_context_create, secp256k1_context_preallocated_create, secp256k1_context_clone, secp256k1_context_preallocated_clone, secp256k1_context_destroy, secp256k1_context_preallocated_destroy, secp256k1_context_preallocated_size, secp256k1_selftest", "src/selftest.h: secp256k1_selftest_sha256", "src/util.h: checked_malloc"]}
{"id": "C64", "title": "The ECDH, ECDSA, Schnorr and ElligatorSwift example programs do not fail an assertion", "statement": "Whatever bytes the random source gives, the programs examples/ecdh.c and examples/ecdsa.c never fail an assertion and never call a callback. With valid secret keys the ECDH program prints both key pairs and one shared secret, the SHA-256 hash of the compressed common point, and the ECDSA program prints the verdict true, the key pair and a valid low-S signature. With an invalid secret key, or when the random source fails, they exit with failure. The Schnorr program prints the verdict true and the BIP 340 signature of its tagged message hash; its only assertion that can fail is the one on signing, when the nonce hash is 0 modulo the group order. The ElligatorSwift program prints two encodings of its keys and the one shared secret of BIP 324, unless the first half of an encoding is 0 modulo the field size.", "quantifier": "every output or failure of the random source, every initial content of the program's variables and of the context memory", "why_tests_cant": "Running an example tries one random key; the assertions are promises for every key.", "anchors": ["examples/ecdh.c: main", "examples/ecdsa.c: main", "examples/schnorr.c: main", "examples/ellswift.c: main"]}
