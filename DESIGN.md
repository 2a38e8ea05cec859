# A machine-checked model of libsecp256k1 in Coq

## What is modelled

The model follows the C sources function by function.  It is one model, at the
level of machine words: field elements are five 52-bit limbs (`field_5x52`),
scalars four 64-bit limbs (`scalar_4x64`), 64/128-bit arithmetic is written
with explicit `mod 2^64` / `mod 2^128`, byte buffers are lists of bytes, opaque
API objects are the byte arrays the C code keeps in them.  Group, multiplication
and API functions are written on top of these limb functions exactly as in C.
Specifications live at the level of mathematics: integers modulo p and n, the
affine group law, byte-string formulas from the standards (FIPS 180-4, RFC 2104,
RFC 6979, BIP-340, BIP-327, BIP-324).

| layer | C files | model | specification |
|---|---|---|---|
| arithmetic foundations | - | - | primality of p and n (Pocklington), F_p, curve group, order n |
| scalars | scalar_impl.h, scalar_4x64_impl.h | 4x64 limbs | Z mod n |
| field | field_impl.h, field_5x52_impl.h, field_5x52_int128_impl.h | 5x52 limbs | Z mod p with magnitude bounds |
| inversion | modinv64_impl.h | signed 62-bit limbs | inverse mod M |
| points | group_impl.h | ge/gej structures over limbs | affine group law |
| multiplication | ecmult_impl.h, ecmult_const_impl.h, ecmult_gen_impl.h | digit recodings and loops | scalar multiplication |
| hashes | hash_impl.h | 32-bit words | FIPS 180-4 etc. |
| sorting | hsort_impl.h | array as list, index arithmetic | Permutation, Sorted |
| scratch | scratch_impl.h | offsets, size_t wrap | disjointness, bounds |
| ECDSA/keys | ecdsa_impl.h, eckey_impl.h, secp256k1.c | API functions | ECDSA equation, encodings |
| modules | recovery, ecdh, extrakeys, schnorrsig, musig, ellswift | API functions | BIP equations |

## How each property is to be proved

* C01-C04 ECDSA: `ecdsa_sign`, `ecdsa_verify`, `normalize` over limbs, nonce
  function as an arbitrary Gallina function argument.  Verification is proved
  equivalent to the ECDSA equation over the group; signing then verifies by algebra in Z/n.
  The unbounded nonce retry loop takes fuel; running out of fuel is a separate outcome.
* C05-C09 encodings: byte-level model of the DER reader with an explicit
  out-of-bounds outcome; equivalence with a grammar of strict DER; round trips.
* C10-C12 keys: parse/serialize against an encoding specification; square roots by
  Euler's criterion for p = 3 mod 4.
* C13-C16 tweaks, negation, combination: homomorphism k -> kG and the group law.
* C17-C18 order and sorting: byte-lexicographic order; heap sort invariant.
* C19 blinding: invariant `n*G = comb(n + scalar_offset) + ge_offset` kept by every blind call.
* C20 ECDH, C21-C22 recovery, C23-C25 Schnorr, C26-C27 x-only keys: algebra on the verified multiplications.
* C28-C30, C49, C51 MuSig2: induction over signers and tweak sequences; secnonce as a state machine over call histories.
* C31-C34, C52 ElligatorSwift: field algebra of the map; x-only multiplication on an isomorphic curve.
  C34 is false as documented: `secp256k1_ellswift_xdh` overwrites the overflow flag of
  `scalar_set_b32` with `scalar_is_zero`, so the secret key n+1 is accepted although
  `ec_seckey_verify` refuses it (`C34_overflow_rejected_refuted`).
* C35-C36 hashes: refinement of the buffered streaming implementation to the one-shot definition.
* C37 argument checks: one type of API calls, the documented conditions on each (CallsVocab.v), and
  for every call: conditions met -> no callback; not met -> one callback and 0. Finding: combination
  and ECDH ignore the failure of loading a public key object, so with an invalid object they call the
  callback and then go on with it and may return 1 (two _refuted theorems).
* C50 contexts: histories of operations over a memory of contexts (CallsVocab.v), invariant by induction.
* C38 scratch: invariant over histories of operations. Finding: scratch_create adds the size of its header
  without an overflow check, so for sizes close to SIZE_MAX the block is too small and the header is written
  outside it (C38_create_never_wraps_refuted; not reachable through the public API).
* C39-C40, C47-C48 limb arithmetic: interval reasoning plus explicit quotients.
* C41 inversion: the signed-limb code (divsteps_59, divsteps_62_var, update_fg, update_de, normalize) with signed
  overflow and undefined shifts as a separate outcome.  Each batch of steps equals that many steps of the
  abstract division step.  Convergence in 590 and 744 steps for all inputs up to 2^256: the transition matrices of
  groups of steps are bounded by convex polygons (SafegcdCert1.v, SafegcdCert2.v, produced by tools/gen_safegcd.py and
  tools/emit_safegcd.py); Safegcd.v checks the polygons in Coq and SafegcdBound.v draws the conclusion.
* C53 square test: the positive division steps and the loop on limbs of JacobiModel.v, with signed overflow as a
  separate outcome.  Jacobi.v defines the symbol by counting (lemma of Gauss and Schering) and proves the rules the code
  uses: periodicity, factors of two, reciprocity (lattice points), and Euler's criterion for primes.  The
  invariant of the loop is that the tracked bit together with the symbol of (g | f) does not change.  Only partial
  correctness of the symbol computation is needed, because the code falls back to a square root when it gives up.
  Finding: the code joins the two low limbs of the modulus with OR, which is wrong when the lowest is negative and the
  next is not a multiple of four (C53_low_limbs_refuted); the modulus of the field is not affected.
* C54 32-bit field: field_10x26_impl.h limb by limb (Field32Model.v), every operation on 32-bit and 64-bit words with
  explicit wraps.  Multiplication and squaring are straight-line programs of about 200 lines; the proof propagates an interval for
  every intermediate and adds up the exact quotients.  SpecRep32.v has a small language of field computations; C54_agree is by induction
  over it.  Finding: src/field.h allows magnitude 32, but on limbs of magnitude 32 the 32-bit normalization overflows a
  word (C54_normalize_32_refuted).  Elements of magnitude 31 or less are correct; no caller in the library was found to exceed this.
* C55 32-bit scalar: scalar_8x32_impl.h word by word (Scalar32Model.v), including the three-word accumulator macros of the
  multiplication and the 512-bit reduction.  Proved like the 64-bit scalars: every accumulator step keeps its exact value and never
  overflows.  SpecScalar32.v has a small language of scalar computations; C55_agree is by induction over it.
* C56 32-bit inversion: modinv32_impl.h limb by limb (Modinv32Model.v): nine limbs of 30 bits, rounds of 30 steps, 20 in constant time
  and at most 25 in variable time, with signed overflow and undefined shifts as a separate outcome; the conversions
  from and to scalars and field elements; the Jacobi symbol and the square test.  The abstract division steps and their bounds are
  those of C41, the rules of the symbol those of C53.  Every odd modulus from 3 to 2^256 is covered, as modinv32.h says.
  The finding of C53 about the low limbs is true here too (C56_low_limbs_refuted).
* C57 both builds agree: the whole library on the 32-bit field, scalars and inversion (W32_*.v, definitions with suffix _w32; the layers above
  the field are the same source text in both builds, so tools/build32.py writes them from the 64-bit model by replacing the functions
  below).  W32_Sim*.v prove a simulation: related points, contexts and objects stay related through every function, with the magnitude
  bounds that keep the 32-bit code exact.  W32_Vocab.v lists 62 API calls and the context operations; C57_builds_agree is by
  induction over the history.  A signature object must hold two scalars below n: the
  two builds reduce other contents differently; C57_signature_objects shows that the library writes no other.
* C42-C45 points, multiplication, endomorphism, group order: abstract group law over a field
  (associativity by complete addition formulas), order of the group from n*G = O, n prime,
  #E <= 2p+1 and absence of 2-torsion.
* C46 batches: ecmult_multi_var with scratch spaces modelled down to the allocations; the callback has a state of its own and the proof follows the calls through every batch. Finding: none; the batch sizes never exceed what the allocations can hold, so no call fails for lack of space.
* C58 timing: 19 API functions and all the functions they call (Ct64_Code.v, Ct32_Code.v, about 250 functions per build), written by
  tools/ct.py statement by statement from the source text after macro expansion, in a small imperative language (CtLang.v).  A run of that language records
  everything the timing of constant-time code must not depend on: branches, addresses, operands of divisions, arguments of library functions, calls.
  `keeps_secrets` compares two runs with the same arguments and public memory and any two secret memories, on any machine (the meaning of
  the operators is left open) and for any number of steps: the records are equal, or differ first in a value the code makes public on purpose
  (`secp256k1_declassify` in the source, event `E_reveal`).  CtCheck.v is a checker of secrecy labels, proved sound by induction over runs; CtReach.v bounds
  the values made public by the functions reached.  Finding: secp256k1_musig_nonce_gen_counter branches on whether the
  secret key in the keypair is valid without declassifying it; the branch is listed in C58_musig_nonce_gen_counter.
* C59, C60 permissive formats (contrib/): the lax signature parser and the import and export of private keys, with every read and write
  checked against the bounds (LaxModel.v).  SpecLax.v describes the two formats as grammars and the exported key as the DER structure
  ECPrivateKey of SEC 1; the parsers are proved to accept exactly the grammars, and export to write exactly that structure.  The sum of a
  pointer and a length that is compared with the end of the buffer (`end < privkey+len`) may lie beyond the buffer, which ISO C leaves
  undefined; the model compares indices.
* C61 table sizes: GenAnyModel.v has the generator multiplication, its blinding and the table program with COMB_BLOCKS and COMB_TEETH as
  parameters.  The comb is a signed digit sum, interleaved by induction on blocks, teeth and offsets; no table entry is infinite
  because its coefficient is a power of two times an odd number below 2^255.  Entries are unique, so the computed table for
  (11, 6) equals the literal one without evaluating it.
  GenApiModel.v and GenMusigModel.v have the functions that create keys, key pairs and encodings or sign (ECDSA, recoverable, Schnorr) or make MuSig nonces with the generator multiplication as an argument; their output bytes are the same in every build.
* C62 window sizes: WindowModel.v has secp256k1_ecmult_strauss_wnaf with the window and the two arrays as arguments, the checks at compile time
  and print_table together with what the preprocessor leaves of its output.  The arrays are proved to be prefixes of the computed tables and equal to
  the table for the smaller window; the proof of C43 is repeated for every window; reads in bounds are stated as independence of what lies behind the arrays.
  WindowApiModel.v has ECDSA and Schnorr verification and key recovery with the multiplication as an argument; they answer alike for every window.
* C63 life of contexts: LifeModel.v has the self test and the functions that create, clone and destroy contexts with malloc as an argument and
  the calls of callbacks as a list.  Each function is computed for all arguments; histories are proved by induction with the invariant that blocks and held contexts agree.
  Finding: with invalid flags secp256k1_context_create reports twice and calls malloc(0); if malloc(0) returns NULL it also reports memory exhaustion.
* C64 example programs: ExampleModel.v has the main functions of examples/ecdh.c and examples/ecdsa.c over the API model, with the bytes of the
  random source as arguments and an ending that tells success (with what is printed), failure and a failed assertion apart. The proofs put the
  API theorems together (key validity, serialization round trips, symmetry of ECDH, signing and verification): Props_Example.v.
  SchnorrExampleModel.v has the main function of examples/schnorr.c (Props_Example2.v); its assertion on signing fails if the nonce hash is 0 modulo
  the order, which no proof can exclude, so the theorem names this case.
  EllswiftExampleModel.v has the main function of examples/ellswift.c (Props_Example3.v), with the exception of C32 for encodings whose first half is 0 modulo p.

## Trusted base

* The kernel of Coq 8.16.1, including its virtual machine (`vm_compute`).
* `Print Assumptions` follows every theorem in the `Props_*.v` files and prints
  "Closed under the global context" for each of them: no theorem rests on an axiom.
  The development defines no axiom, functor or module type.  Loading ssreflect puts seven constants
  of `Coq.ssr.ssrunder.Under_rel` (part of the standard library) into the environment, which a
  whole-environment check lists; no theorem uses them.
* That the model says what the C code says.  Every definition cites the lines it follows; `tools/cites.py`
  checks that the cited lines contain the cited functions.

### What is modelled

The 64-bit configuration: `field_5x52` with the `int128` multiplication, `scalar_4x64`, `modinv64`, and both
implementations of 128-bit integers (native and emulated by two words); `USE_ASM` off; window size and comb
parameters at their defaults (C61 has every value of the comb parameters, C62 of the window size).

* All public functions of secp256k1.h and of the modules ecdh, recovery, extrakeys, schnorrsig, musig and
  ellswift, and context creation, cloning, randomization and callbacks (also preallocated).
* Below them all of group_impl.h, ecmult_impl.h (wnaf, strauss, pippenger, batches), ecmult_const_impl.h,
  ecmult_gen_impl.h, scalar and field arithmetic, modular inversion, Jacobi symbol, hashing, sorting, scratch space.
* NULL arguments and invalid opaque objects: the illegal-argument callback is counted in the result of each call.

### What is simplified

* Memory is modelled by values: output buffers and in/out parameters are results of functions.  Aliasing of arguments is
  modelled only where the code handles it (field and point operations on the same object give the same result because
  a C function reads its inputs before it writes, which the model takes for granted).  Scratch space
  and contexts are modelled with addresses and sizes.
* The error callback for out-of-memory in malloc is a result of its own.
* The table of precomputed_ecmult_gen.c is in the model literally (GenTable.v) and proved to hold the right points.  The
  two tables of precomputed_ecmult.c (16384 entries) are modelled as the output of the code which generates them
  (ecmult_compute_table_impl.h); the literal numbers are not compared with it.
* The API level uses the modular inverse as such and tests for squares by the square root; C41_scalar, C41_field and
  C53_square prove that the code computes the same.
* Loops that end with overwhelming probability only (nonce retries, ElligatorSwift encoding) take fuel; running out
  of fuel is a distinct outcome.
* VERIFY_CHECK is not executed (as in production builds); that its conditions hold is part of the
  representation invariants proved (magnitudes, ranges).

### What is not modelled

* Assembly and `scalar_low`; big-endian machines (the memory image of objects and storage is little-endian in both builds).
* For the 32-bit build: batches and scratch spaces (C38, C46) and the generators of the tables.
* Benchmarks and test code; that `memclear` is not optimized away.
* For timing (C58): what a compiler does with the C text, and instructions other than division whose time depends on their operands
  (multiplication on some 32-bit machines).  The user's own nonce and hash functions (the default ones are modelled) and callbacks.  Memory is two disjoint
  memories, public and secret, and tools/ct.py assigns objects to them (PUBFIELDS, PUBOBJ, PUBPARAM at its top): a public key, aggregation cache, session, ElligatorSwift encoding,
  x-only tweak or auxiliary randomness given to the function, the lengths and flags inside hash states, constant tables, and the public half of keypairs and secret nonces are public; all
  else is secret.  A variable used first for a public and then for a secret value counts as two (CALLVIEW).  Functions that exist in a constant
  and a public version (called with secret or with public objects) appear once for each, with a suffix of one letter per pointer.
  Variable-time functions on public objects only (`secp256k1_ecmult`, square roots, the ElligatorSwift encoder) are single steps.
* The default callbacks printing to stderr and aborting.
