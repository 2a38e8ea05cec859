{
 "claims": [
  {
   "property": "C01",
   "status": "proved",
   "theorems": [
    "C01_sign_then_verify",
    "C01_default_nonce",
    "C01_sign_succeeds"
   ],
   "note": "The nonce function is an arbitrary callback; the default one is shown to be one of them. Termination of the retry loop is a hypothesis (a usable nonce occurs at some attempt)."
  },
  {
   "property": "C02",
   "status": "proved",
   "theorems": [
    "C02_verify_exact"
   ],
   "note": ""
  },
  {
   "property": "C03",
   "status": "proved",
   "theorems": [
    "C03_normalize"
   ],
   "note": ""
  },
  {
   "property": "C04",
   "status": "proved",
   "theorems": [
    "C04_sign_result",
    "C04_sign_invalid_key",
    "C04_sign_nonce_fails",
    "C04_zero_signature_rejected"
   ],
   "note": ""
  },
  {
   "property": "C05",
   "status": "proved",
   "theorems": [
    "C05_der_round_trip"
   ],
   "note": ""
  },
  {
   "property": "C06",
   "status": "proved",
   "theorems": [
    "C06_der_serialize"
   ],
   "note": ""
  },
  {
   "property": "C07",
   "status": "proved",
   "theorems": [
    "C07_der_parse_total"
   ],
   "note": ""
  },
  {
   "property": "C08",
   "status": "proved",
   "theorems": [
    "C08_der_accepts_exactly",
    "C08_der_parsed_value",
    "C08_der_out_of_range"
   ],
   "note": ""
  },
  {
   "property": "C09",
   "status": "proved",
   "theorems": [
    "C09_compact"
   ],
   "note": ""
  },
  {
   "property": "C10",
   "status": "proved",
   "theorems": [
    "C10_pubkey_parse_exact"
   ],
   "note": ""
  },
  {
   "property": "C11",
   "status": "proved",
   "theorems": [
    "C11_pubkey_serialize_roundtrip",
    "C11_pubkey_serialize_injective"
   ],
   "note": ""
  },
  {
   "property": "C12",
   "status": "proved",
   "theorems": [
    "C12_seckey_verify_exact",
    "C12_pubkey_create_exact"
   ],
   "note": ""
  },
  {
   "property": "C13",
   "status": "proved",
   "theorems": [
    "C13_tweak_add",
    "C13_pubkey_tweak_add_exact",
    "C13_seckey_tweak_add_exact"
   ],
   "note": ""
  },
  {
   "property": "C14",
   "status": "proved",
   "theorems": [
    "C14_tweak_mul",
    "C14_pubkey_tweak_mul_exact",
    "C14_seckey_tweak_mul_exact"
   ],
   "note": ""
  },
  {
   "property": "C15",
   "status": "proved",
   "theorems": [
    "C15_negate",
    "C15_pubkey_negate",
    "C15_seckey_negate_invalid"
   ],
   "note": ""
  },
  {
   "property": "C16",
   "status": "proved",
   "theorems": [
    "C16_combine",
    "C16_combine_order"
   ],
   "note": ""
  },
  {
   "property": "C17",
   "status": "proved",
   "theorems": [
    "C17_cmp_is_lexicographic",
    "C17_cmp_total_order"
   ],
   "note": ""
  },
  {
   "property": "C18",
   "status": "proved",
   "theorems": [
    "C18_pubkey_sort",
    "C18_hsort",
    "C18_heap_swap"
   ],
   "note": ""
  },
  {
   "property": "C19",
   "status": "proved",
   "theorems": [
    "C19_sign_recoverable_blinding",
    "C19_pubkey_create_blinding",
    "C19_ecdsa_sign_blinding",
    "C19_ellswift_create_blinding",
    "C19_musig_nonce_gen_blinding",
    "C19_musig_nonce_gen_counter_blinding",
    "C19_keypair_create_blinding",
    "C19_schnorr_sign_blinding"
   ],
   "note": "Proved for public key, key pair and ElligatorSwift key creation, ECDSA, recoverable and Schnorr signing and MuSig nonce generation; the other functions do not read the generator blinding."
  },
  {
   "property": "C20",
   "status": "proved",
   "theorems": [
    "C20_ecdh_exact",
    "C20_ecdh_symmetric",
    "C20_default_hash"
   ],
   "note": ""
  },
  {
   "property": "C21",
   "status": "proved",
   "theorems": [
    "C21_recover_after_sign",
    "C21_sign_result",
    "C21_sign_agrees",
    "C21_sign_agrees_rev",
    "C21_compact"
   ],
   "note": ""
  },
  {
   "property": "C22",
   "status": "proved",
   "theorems": [
    "C22_recover_exact",
    "C22_recovered_key_verifies"
   ],
   "note": ""
  },
  {
   "property": "C23",
   "status": "proved",
   "theorems": [
    "C23_sign_custom_verifies",
    "C23_sign32_verifies",
    "C23_sign32_exact"
   ],
   "note": ""
  },
  {
   "property": "C24",
   "status": "proved",
   "theorems": [
    "C24_verify_exact",
    "C24_invalid_key_rejected"
   ],
   "note": ""
  },
  {
   "property": "C25",
   "status": "proved",
   "theorems": [
    "C25_sign_result",
    "C25_fails_closed",
    "C25_sign32_fails_closed",
    "C25_invalid_keypair"
   ],
   "note": ""
  },
  {
   "property": "C26",
   "status": "proved",
   "theorems": [
    "C26_parse",
    "C26_parse_serialize",
    "C26_serialize_parse",
    "C26_from_pubkey",
    "C26_cmp"
   ],
   "note": ""
  },
  {
   "property": "C27",
   "status": "proved",
   "theorems": [
    "C27_create",
    "C27_parts",
    "C27_xonly_pub",
    "C27_xonly_tweak",
    "C27_tweaks_agree",
    "C27_tweak_check"
   ],
   "note": ""
  },
  {
   "property": "C28",
   "status": "proved",
   "theorems": [
    "C28_aggregate_verifies",
    "C28_nonce_gen_exact",
    "C28_nonce_gen_zero_rand",
    "C28_nonce_gen_counter_exact",
    "C28_nonce_agg_exact",
    "C28_nonce_process_exact",
    "C28_partial_sign_exact",
    "C28_partial_sig_agg_exact"
   ],
   "note": "Excluded as in BIP 327: an aggregate key or final nonce point that is infinity, and derived nonces that are 0 modulo n."
  },
  {
   "property": "C29",
   "status": "proved",
   "theorems": [
    "C29_verify_exact",
    "C29_honest_accepted",
    "C29_unique"
   ],
   "note": ""
  },
  {
   "property": "C30",
   "status": "proved",
   "theorems": [
    "C30_sign_zeroes",
    "C30_zeroed_refused",
    "C30_history",
    "C30_at_most_once"
   ],
   "note": ""
  },
  {
   "property": "C31",
   "status": "proved",
   "theorems": [
    "C31_decode_total",
    "C31_point_unique"
   ],
   "note": ""
  },
  {
   "property": "C32",
   "status": "proved",
   "theorems": [
    "C32_inverse_exact",
    "C32_encode_result",
    "C32_encode_decode",
    "C32_create_result",
    "C32_create_decode"
   ],
   "note": "The search in encode and create takes fuel; its termination depends on SHA-256 and is not claimed (a concrete run is shown). If the hash u is a multiple of p the round trip is not claimed."
  },
  {
   "property": "C33",
   "status": "proved",
   "theorems": [
    "C33_xdh_exact",
    "C33_xdh_symmetric",
    "C33_hash_bip324",
    "C33_hash_prefix"
   ],
   "note": ""
  },
  {
   "property": "C34",
   "status": "partial",
   "theorems": [
    "C34_zero_rejected_partial",
    "C34_key_reduced_partial",
    "C34_overflow_rejected_refuted"
   ],
   "note": "The claim is false of the code for keys > n: the overflow flag of scalar_set_b32 is overwritten (C34_overflow_rejected_refuted). Proved: the keys 0 and n are rejected; every key is taken modulo n."
  },
  {
   "property": "C35",
   "status": "proved",
   "theorems": [
    "C35_sha256",
    "C35_tagged_sha256"
   ],
   "note": ""
  },
  {
   "property": "C36",
   "status": "proved",
   "theorems": [
    "C36_hmac",
    "C36_rfc6979_generator",
    "C36_default_nonce"
   ],
   "note": ""
  },
  {
   "property": "C37",
   "status": "proved",
   "theorems": [
    "C37_legal_never_reported",
    "C37_illegal_reported",
    "C37_going_on_reports",
    "C37_missing_pointer",
    "C37_combine_returns_0_refuted",
    "C37_ecdh_returns_0_refuted"
   ],
   "note": "All 68 modelled API entry points in one call type. That combination and ECDH with a caller-supplied hash return 1 after reporting an invalid key object is proved as two _refuted theorems. For sorting only the missing-pointer and the all-legal cases are claimed here."
  },
  {
   "property": "C38",
   "status": "proved",
   "theorems": [
    "C38_alloc",
    "C38_regions",
    "C38_no_undefined_behaviour",
    "C38_checkpoint",
    "C38_bad_checkpoint",
    "C38_max_allocation",
    "C38_create_never_wraps_refuted",
    "C38_create"
   ],
   "note": "For every power-of-two alignment. Sizes within alignment+32 bytes of SIZE_MAX are excluded: creation does wrap around there, proved as C38_create_never_wraps_refuted. A checkpoint counts as of use until an earlier one is applied."
  },
  {
   "property": "C39",
   "status": "proved",
   "theorems": [
    "C39_mul",
    "C39_sqr",
    "C39_add",
    "C39_add_int",
    "C39_negate",
    "C39_mul_int",
    "C39_half",
    "C39_normalize",
    "C39_compare",
    "C39_equal",
    "C39_bytes",
    "C39_storage",
    "C39_sqrt"
   ],
   "note": "The model computes with wrapped 64 and 128 bit words, so exactness of the result implies that no carry is lost. Inversion is taken at its specification, which C41_field and C41_scalar prove equal to the code."
  },
  {
   "property": "C40",
   "status": "proved",
   "theorems": [
    "C40_add",
    "C40_mul",
    "C40_reduce_512",
    "C40_negate",
    "C40_half",
    "C40_cadd_bit",
    "C40_tests",
    "C40_bits",
    "C40_mul_shift",
    "C40_bytes",
    "C40_split_128"
   ],
   "note": ""
  },
  {
   "property": "C41",
   "status": "proved",
   "theorems": [
    "C41_modinv",
    "C41_modinv_var",
    "C41_moduli",
    "C41_scalar",
    "C41_field",
    "C41_590_steps",
    "C41_744_steps",
    "C41_trailing_zeros",
    "C41_trailing_zeros_32"
   ],
   "note": "The 64-bit inversion code limb by limb, for every modulus it accepts; signed overflow is a distinct outcome of the model and excluded. Convergence within 590 (constant time) and 744 (variable time) steps is proved for all inputs up to 2^256 from a convex-hull certificate checked in Coq. Every odd modulus from 3 to 2^256 is covered. The 32-bit code is in C56."
  },
  {
   "property": "C42",
   "status": "proved",
   "theorems": [
    "C42_double",
    "C42_add_var",
    "C42_add_ge_var",
    "C42_add_ge",
    "C42_add_zinv_var",
    "C42_neg",
    "C42_set_gej",
    "C42_set_all_gej_var",
    "C42_eq_var",
    "C42_set_xo_var",
    "C42_rescale",
    "C42_eq_x_var",
    "C42_x_frac_on_curve_var"
   ],
   "note": "Affine conversion uses inversion at its specification, which C41_field proves equal to the code."
  },
  {
   "property": "C43",
   "status": "proved",
   "theorems": [
    "C43_ecmult",
    "C43_strauss",
    "C43_ecmult_const",
    "C43_ecmult_const_xonly",
    "C43_ecmult_gen",
    "C43_multi"
   ],
   "note": "Double multiplication, interleaved multi-multiplication (strauss), constant-time, x-only and generator multiplication are exact, and so is ecmult_multi_var through its simple, strauss and pippenger paths for every number of points and every scratch space."
  },
  {
   "property": "C44",
   "status": "proved",
   "theorems": [
    "C44_split_lambda",
    "C44_mul_lambda"
   ],
   "note": ""
  },
  {
   "property": "C45",
   "status": "proved",
   "theorems": [
    "C45_cyclic",
    "C45_order",
    "C45_exact_order",
    "C45_prime"
   ],
   "note": ""
  },
  {
   "property": "C46",
   "status": "proved",
   "theorems": [
    "C46_indices",
    "C46_callback_histories"
   ],
   "note": "Sizes of the structures are those of the 64-bit build (5x52 field, 4x64 scalar). The contents of the arrays in the scratch space are lists in the model; bounds and disjointness of the allocations are C38."
  },
  {
   "property": "C47",
   "status": "proved",
   "theorems": [
    "C47_field_move",
    "C47_field_storage_move",
    "C47_scalar_move",
    "C47_group_move",
    "C47_group_storage_move",
    "C47_int_move",
    "C47_zero",
    "C47_negate"
   ],
   "note": "All conditional moves of the 5x52 and 4x64 representations, memczero, int_cmov and scalar_cond_negate."
  },
  {
   "property": "C48",
   "status": "proved",
   "theorems": [
    "C48_mul",
    "C48_accumulate_mul",
    "C48_accumulate",
    "C48_shift",
    "C48_parts",
    "C48_check_bits",
    "C48_signed_mul",
    "C48_signed_accumulate",
    "C48_signed_subtract",
    "C48_determinant",
    "C48_signed_shift",
    "C48_signed_parts",
    "C48_signed_compare",
    "C48_agrees_with_native"
   ],
   "note": "The portable variant with 32x32->64 multiplications; the MSVC intrinsics are not modelled. Signed overflow is a distinct outcome and proved absent."
  },
  {
   "property": "C49",
   "status": "proved",
   "theorems": [
    "C49_pubkey_agg_exact",
    "C49_ec_tweak_exact",
    "C49_xonly_tweak_exact",
    "C49_tweak_history"
   ],
   "note": ""
  },
  {
   "property": "C50",
   "status": "proved",
   "theorems": [
    "C50_static_unchanged_others_usable",
    "C50_changes_only_by_randomize_and_setters",
    "C50_clone_is_equal",
    "C50_static_cannot_sign"
   ],
   "note": "Histories of create, clone, randomize, callback setters, destroy and any other call over any number of contexts. That the other calls leave the context alone is by construction: in the model, as with the pointer to const in C, they have no way to write it."
  },
  {
   "property": "C51",
   "status": "proved",
   "theorems": [
    "C51_pubnonce_parse_exact",
    "C51_aggnonce_parse_exact",
    "C51_partial_sig_parse_exact",
    "C51_pubnonce_roundtrip",
    "C51_aggnonce_roundtrip",
    "C51_partial_sig_roundtrip",
    "C51_pubnonce_reparse",
    "C51_aggnonce_reparse"
   ],
   "note": ""
  },
  {
   "property": "C52",
   "status": "proved",
   "theorems": [
    "C52_inverse_distinct",
    "C52_inverse_exhaustive"
   ],
   "note": ""
  },
  {
   "property": "C53",
   "status": "proved",
   "theorems": [
    "C53_square",
    "C53_jacobi",
    "C53_low_limbs_refuted"
   ],
   "note": "The Jacobi symbol computation is modelled limb by limb; for every modulus with a factorization into odd primes the result is zero (given up) or the Jacobi symbol, and the square test of field elements is exact for every number of rounds. C53_low_limbs_refuted shows that the condition on the two low limbs of the modulus is needed."
  },
  {
   "property": "C54",
   "status": "proved",
   "theorems": [
    "C54_mul",
    "C54_sqr",
    "C54_linear",
    "C54_normalize",
    "C54_normalize_32_refuted",
    "C54_compare",
    "C54_equal",
    "C54_bytes",
    "C54_storage",
    "C54_select",
    "C54_set_int",
    "C54_sqrt",
    "C54_agree"
   ],
   "note": "field_10x26_impl.h limb by limb except inversion and the square test by Jacobi symbol (they use modinv32). Correct for magnitudes up to 31; C54_normalize_32_refuted shows that magnitude 32, allowed by src/field.h, overflows. C54_agree: every computation over the operations gives the same bytes in both builds."
  },
  {
   "property": "C55",
   "status": "proved",
   "theorems": [
    "C55_add",
    "C55_mul",
    "C55_reduce_512",
    "C55_negate",
    "C55_half",
    "C55_cadd_bit",
    "C55_tests",
    "C55_bits",
    "C55_mul_shift",
    "C55_bytes",
    "C55_split_128",
    "C55_cmov",
    "C55_split_lambda",
    "C55_agree"
   ],
   "note": "scalar_8x32_impl.h word by word except inversion (in C56). mul_shift_var is modelled for every shift and proved for 384, the only shift the library uses. C55_agree: every computation over the operations gives the same bytes, predicates and digits in both builds."
  },
  {
   "property": "C56",
   "status": "proved",
   "theorems": [
    "C56_modinv",
    "C56_modinv_var",
    "C56_moduli",
    "C56_scalar",
    "C56_field",
    "C56_jacobi",
    "C56_low_limbs_refuted",
    "C56_square"
   ],
   "note": "The 32-bit inversion and Jacobi symbol code limb by limb with the conversions, for every modulus it accepts; signed overflow is a distinct outcome of the model and excluded. The step bounds are those of C41. C56_low_limbs_refuted: as in the 64-bit code, the symbol can be wrong for a modulus with a negative lowest limb; the modulus of the field is not affected."
  },
  {
   "property": "C57",
   "status": "proved",
   "theorems": [
    "C57_builds_agree",
    "C57_signature_objects"
   ],
   "note": "By simulation through every layer from the field to the API. The 32-bit models above the field are generated from the 64-bit ones, as the source text is shared. Signature objects are required to hold scalars below the group order, which C57_signature_objects proves of every object the library writes. Undefined calls (None) are undefined in both builds; fuel of the probabilistic loops is the same in both. Batches (ecmult_multi) and scratch spaces are not included."
  },
  {
   "property": "C58",
   "status": "proved",
   "theorems": [
    "C58_nothing_seen",
    "C58_ecdsa_sign",
    "C58_schnorrsig_sign",
    "C58_keypair_tweak",
    "C58_ellswift_create",
    "C58_musig_nonce_gen",
    "C58_musig_nonce_gen_counter",
    "C58_musig_partial_sign"
   ],
   "note": "19 API functions, with all they call, in both builds. The functions are translated to a small language by tools/ct.py and the secrecy labels are checked by a checker proved sound in Coq. The default nonce and hash functions are used; which objects are public is listed in DESIGN.md. What a compiler makes of the C text is outside the model."
  },
  {
   "property": "C59",
   "status": "proved",
   "theorems": [
    "C59_lax_accepts_exactly",
    "C59_lax_parsed_value",
    "C59_lax_invalid_never_verifies",
    "C59_lax_extends_strict"
   ],
   "note": "A sig pointer that is not NULL (the header requires it). Lengths of 2^56 bytes and more are refused by the code, so strict DER is accepted for inputs below that size."
  },
  {
   "property": "C60",
   "status": "proved",
   "theorems": [
    "C60_import_exact",
    "C60_export_import"
   ],
   "note": "Pointer sums that are only compared with the end of the input are indices in the model (see DESIGN.md). The buffer has the 279 bytes the header asks for."
  },
  {
   "property": "C61",
   "status": "proved",
   "theorems": [
    "C61_accepted_configurations",
    "C61_table_entries",
    "C61_checked_in_table",
    "C61_multiplication",
    "C61_configurations_agree",
    "C61_default_is_instance",
    "C61_reads_in_bounds",
    "C61_pubkey_create",
    "C61_ecdsa_sign",
    "C61_schnorrsig_sign",
    "C61_keypair_create",
    "C61_sign_recoverable",
    "C61_ellswift_create",
    "C61_default_functions",
    "C61_musig_nonce_gen",
    "C61_musig_nonce_gen_counter",
    "C61_musig_default_functions"
   ],
   "note": "Printing the computed constants into a C file and compiling them is taken to be faithful for configurations other than (11, 6), whose literal table is in the model. The allocations of the table program are assumed to succeed."
  },
  {
   "property": "C62",
   "status": "proved",
   "theorems": [
    "C62_accepted_windows",
    "C62_table_lengths",
    "C62_table_entries",
    "C62_strauss",
    "C62_ecmult",
    "C62_windows_agree",
    "C62_reads_in_bounds",
    "C62_default_is_instance",
    "C62_ecdsa_verify",
    "C62_schnorrsig_verify",
    "C62_ecdsa_recover",
    "C62_default_functions"
   ],
   "note": "The numbers written into src/precomputed_ecmult.c are taken to be those the table program computes; the 16384 literals are not compared with it. The allocations of the table program are assumed to succeed."
  },
  {
   "property": "C63",
   "status": "proved",
   "theorems": [
    "C63_selftest",
    "C63_sizes",
    "C63_create_valid",
    "C63_create_invalid",
    "C63_create_out_of_memory",
    "C63_preallocated_create",
    "C63_clone",
    "C63_preallocated_clone",
    "C63_destroy",
    "C63_static_and_null",
    "C63_histories"
   ],
   "note": "Callbacks are taken to return. If the default error callback returns when secp256k1_context_create finds no memory, the code writes through NULL (C63_create_out_of_memory); the callback's documentation forbids it to return."
  },
  {
   "property": "C64",
   "status": "proved",
   "theorems": [
    "C64_ecdh_program_alive",
    "C64_ecdh_program",
    "C64_ecdsa_program_alive",
    "C64_ecdsa_program",
    "C64_schnorr_program",
    "C64_schnorr_program_killed",
    "C64_ellswift_program"
   ],
   "note": "Signing takes fuel: Running means that every nonce tried so far was unusable. Destroying the context (C63), erasing the secrets and the text printed around the values are left out; the MuSig example is not modelled. The Schnorr program's assertion on signing fails exactly when BIP 340 has no signature (nonce hash 0 modulo the order). For the ElligatorSwift program encodings whose first half is 0 modulo p are excluded, as in C32."
  }
 ]
}