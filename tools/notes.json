{
 "C19": {
  "status": "proved",
  "note": "Proved for public key, key pair and ElligatorSwift key creation, ECDSA, recoverable and Schnorr signing and MuSig nonce generation; the other functions do not read the generator blinding."
 },
 "C01": {
  "note": "The nonce function is an arbitrary callback; the default one is shown to be one of them. Termination of the retry loop is a hypothesis (a usable nonce occurs at some attempt)."
 },
 "C43": {
  "note": "Double multiplication, interleaved multi-multiplication (strauss), constant-time, x-only and generator multiplication are exact, and so is ecmult_multi_var through its simple, strauss and pippenger paths for every number of points and every scratch space."
 },
 "C39": {
  "note": "The model computes with wrapped 64 and 128 bit words, so exactness of the result implies that no carry is lost. Inversion is taken at its specification, which C41_field and C41_scalar prove equal to the code."
 },
 "C42": {
  "note": "Affine conversion uses inversion at its specification, which C41_field proves equal to the code."
 },
 "C32": {
  "note": "The search in encode and create takes fuel; its termination depends on SHA-256 and is not claimed (a concrete run is shown). If the hash u is a multiple of p the round trip is not claimed."
 },
 "C34": {
  "status": "partial",
  "note": "The claim is false of the code for keys > n: the overflow flag of scalar_set_b32 is overwritten (C34_overflow_rejected_refuted). Proved: the keys 0 and n are rejected; every key is taken modulo n."
 },
 "C28": {
  "status": "proved",
  "note": "Excluded as in BIP 327: an aggregate key or final nonce point that is infinity, and derived nonces that are 0 modulo n."
 },
 "C37": {
  "note": "All 68 modelled API entry points in one call type. That combination and ECDH with a caller-supplied hash return 1 after reporting an invalid key object is proved as two _refuted theorems. For sorting only the missing-pointer and the all-legal cases are claimed here."
 },
 "C50": {
  "note": "Histories of create, clone, randomize, callback setters, destroy and any other call over any number of contexts. That the other calls leave the context alone is by construction: in the model, as with the pointer to const in C, they have no way to write it."
 },
 "C47": {
  "note": "All conditional moves of the 5x52 and 4x64 representations, memczero, int_cmov and scalar_cond_negate."
 },
 "C48": {
  "note": "The portable variant with 32x32->64 multiplications; the MSVC intrinsics are not modelled. Signed overflow is a distinct outcome and proved absent."
 },
 "C38": {
  "note": "For every power-of-two alignment. Sizes within alignment+32 bytes of SIZE_MAX are excluded: creation does wrap around there, proved as C38_create_never_wraps_refuted. A checkpoint counts as of use until an earlier one is applied."
 },
 "C46": {
  "note": "Sizes of the structures are those of the 64-bit build (5x52 field, 4x64 scalar). The contents of the arrays in the scratch space are lists in the model; bounds and disjointness of the allocations are C38."
 },
 "C41": {
  "status": "proved",
  "note": "The 64-bit inversion code limb by limb, for every modulus it accepts; signed overflow is a distinct outcome of the model and excluded. Convergence within 590 (constant time) and 744 (variable time) steps is proved for all inputs up to 2^256 from a convex-hull certificate checked in Coq. Every odd modulus from 3 to 2^256 is covered. The 32-bit code is in C56."
 },
 "C53": {
  "note": "The Jacobi symbol computation is modelled limb by limb; for every modulus with a factorization into odd primes the result is zero (given up) or the Jacobi symbol, and the square test of field elements is exact for every number of rounds. C53_low_limbs_refuted shows that the condition on the two low limbs of the modulus is needed."
 },
 "C54": {
  "status": "proved",
  "note": "field_10x26_impl.h limb by limb except inversion and the square test by Jacobi symbol (they use modinv32). Correct for magnitudes up to 31; C54_normalize_32_refuted shows that magnitude 32, allowed by src/field.h, overflows. C54_agree: every computation over the operations gives the same bytes in both builds."
 },
 "C55": {
  "status": "proved",
  "note": "scalar_8x32_impl.h word by word except inversion (in C56). mul_shift_var is modelled for every shift and proved for 384, the only shift the library uses. C55_agree: every computation over the operations gives the same bytes, predicates and digits in both builds."
 },
 "C56": {
  "status": "proved",
  "note": "The 32-bit inversion and Jacobi symbol code limb by limb with the conversions, for every modulus it accepts; signed overflow is a distinct outcome of the model and excluded. The step bounds are those of C41. C56_low_limbs_refuted: as in the 64-bit code, the symbol can be wrong for a modulus with a negative lowest limb; the modulus of the field is not affected."
 },
 "C57": {
  "status": "proved",
  "note": "By simulation through every layer from the field to the API. The 32-bit models above the field are generated from the 64-bit ones, as the source text is shared. Signature objects are required to hold scalars below the group order, which C57_signature_objects proves of every object the library writes. Undefined calls (None) are undefined in both builds; fuel of the probabilistic loops is the same in both. Batches (ecmult_multi) and scratch spaces are not included."
 },
 "C58": {
  "status": "proved",
  "note": "19 API functions, with all they call, in both builds. The functions are translated to a small language by tools/ct.py and the secrecy labels are checked by a checker proved sound in Coq. The default nonce and hash functions are used; which objects are public is listed in DESIGN.md. What a compiler makes of the C text is outside the model."
 },
 "C59": {
  "status": "proved",
  "note": "A sig pointer that is not NULL (the header requires it). Lengths of 2^56 bytes and more are refused by the code, so strict DER is accepted for inputs below that size."
 },
 "C60": {
  "status": "proved",
  "note": "Pointer sums that are only compared with the end of the input are indices in the model (see DESIGN.md). The buffer has the 279 bytes the header asks for."
 },
 "C61": {
  "status": "proved",
  "note": "Printing the computed constants into a C file and compiling them is taken to be faithful for configurations other than (11, 6), whose literal table is in the model. The allocations of the table program are assumed to succeed."
 },
 "C62": {
  "status": "proved",
  "note": "The numbers written into src/precomputed_ecmult.c are taken to be those the table program computes; the 16384 literals are not compared with it. The allocations of the table program are assumed to succeed."
 },
 "C63": {
  "status": "proved",
  "note": "Callbacks are taken to return. If the default error callback returns when secp256k1_context_create finds no memory, the code writes through NULL (C63_create_out_of_memory); the callback's documentation forbids it to return."
 },
 "C64": {
  "status": "proved",
  "note": "Signing takes fuel: Running means that every nonce tried so far was unusable. Destroying the context (C63), erasing the secrets and the text printed around the values are left out; the MuSig example is not modelled. The Schnorr program's assertion on signing fails exactly when BIP 340 has no signature (nonce hash 0 modulo the order). For the ElligatorSwift program encodings whose first half is 0 modulo p are excluded, as in C32."
 }
}